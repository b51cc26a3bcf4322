(* Facts about the tables of patterns, found by searching through their derivatives. *)
From Verif Require Import Py PyFacts Re ReFacts ReInter Dict DictFacts CookieModel CookieSpec.
From Coq Require Import Permutation.

(* every pattern of the tables is understood *)
Lemma all_compile : forallb (fun '(_, ps) => forallb (fun p => match compile (L p) with Some _ => true | None => false end) ps)
  (run_defs ++ login_defs ++ motd_defs) = true.
Proof. vm_compute. reflexivity. Qed.
(* the only name in two tables has the same patterns *)
Definition pat_eqb (a b : pat) : bool := if re_eqb (body a) (body b) then Bool.eqb (at_end a) (at_end b) else false.
Fixpoint pats_eqb (a b : list pat) : bool :=
  match a, b with [], [] => true | x :: a, y :: b => pat_eqb x y && pats_eqb a b | _, _ => false end.
Lemma shared_same : let tables := map table [Login; Motd; Run] in
  forallb (fun t => forallb (fun u => forallb (fun '(n, r) =>
    match dget String.eqb u n with Some r' => pats_eqb r r' | None => true end) t) tables) tables = true.
Proof. vm_compute. reflexivity. Qed.

(* ---- which names a message fits ---- *)
Definition byte : re := Chr (Ranges true []).
Definition lang_of (p : pat) : re := Cat (body p) (if at_end p then opt (char (ascii_of_nat 10)) else Star byte).
Lemma star_byte s : lang (Star byte) s.
Proof. induction s as [|c s IH]; [constructor|]. change (c :: s) with ([c] ++ s). constructor; [constructor; reflexivity|exact IH]. Qed.
Lemma matches_lang p m : matches p m = true <-> lang (lang_of p) m.
Proof.
  unfold matches, lang_of. destruct (at_end p).
  - rewrite ends_ok. split.
    + intros [H|(a & -> & H)]; [|constructor; [exact H|apply l_left; constructor; reflexivity]].
      rewrite <- (app_nil_r m). constructor; [exact H|apply l_right; constructor].
    + intros H. apply cat_inv in H as (a & b & -> & A & B). apply alt_inv in B as [B|B]; inversion B; subst.
      * right. exists a. match goal with X : inset _ _ = true |- _ => apply Ascii.eqb_eq in X; subst end. auto.
      * left. rewrite app_nil_r. exact A.
  - rewrite starts_ok. split.
    + intros (a & b & -> & H). constructor; [exact H|apply star_byte].
    + intros H. apply cat_inv in H as (a & b & -> & A & _). eauto.
Qed.
Definition alt_of (ps : list pat) : re := fold_right (fun p r => Alt (lang_of p) r) Emp ps.
Lemma alt_of_lang ps m : lang (alt_of ps) m <-> exists r, In r ps /\ matches r m = true.
Proof.
  induction ps as [|p ps IH]; cbn [alt_of fold_right].
  - split; [intros H; destruct (emp_lang _ H)|intros (r & [] & _)].
  - rewrite alt_inv. unfold alt_of in IH. rewrite IH, <- matches_lang. split.
    + intros [H|(r & I & H)]; [exists p|exists r]; split; auto; [left|right]; auto.
    + intros (r & [->|I] & H); eauto.
Qed.
Definition named (p : phase) : list (string * re) := map (fun x => (fst x, alt_of (snd x))) (table p).
Fixpoint nodupb (l : list string) : bool := match l with [] => true | x :: l => negb (existsb (String.eqb x) l) && nodupb l end.
Lemma nodupb_ok l : nodupb l = true -> NoDup l.
Proof.
  induction l as [|x l IH]; cbn; [constructor|]. intros H. apply andb_true_iff in H as [N H]. constructor; auto. intros I.
  apply negb_true_iff in N. assert (existsb (String.eqb x) l = true); [|congruence]. apply existsb_exists. exists x. split; auto. apply String.eqb_refl.
Qed.
Lemma table_nodup p : NoDup (keys (table p)).
Proof. apply nodupb_ok. destruct p; vm_compute; reflexivity. Qed.
Lemma seqb_ok : forall a b, String.eqb a b = true <-> a = b.
Proof. exact String.eqb_eq. Qed.
Lemma fits_named p n m : fits p n m <-> exists r, In (n, r) (named p) /\ lang r m.
Proof.
  unfold fits, patterns, named. split.
  - intros (r & I & H). destruct (dget String.eqb (table p) n) as [ps|] eqn:E; [|destruct I]. apply (dget_in _ seqb_ok) in E.
    exists (alt_of ps). split; [apply in_map_iff; exists (n, ps); auto|]. apply alt_of_lang. eauto.
  - intros (r & I & H). apply in_map_iff in I as ([n' ps] & E & I). cbn in E. injection E as -> <-.
    rewrite (dget_unique _ seqb_ok _ _ _ (table_nodup p) I). apply alt_of_lang in H. exact H.
Qed.
Lemma fits_key p n m : fits p n m -> In n (keys (table p)).
Proof.
  unfold fits, patterns. intros (r & I & _). destruct (dget String.eqb (table p) n) as [ps|] eqn:E; [|destruct I].
  apply (dget_in _ seqb_ok) in E. unfold keys. apply in_map_iff. exists (n, ps). auto.
Qed.
Definition in_overlaps (n m : string) : bool := existsb (fun '(a, b) => String.eqb a n && String.eqb b m) overlaps.
Lemma run_overlaps : shares_only in_overlaps (named Run) = true.
Proof. vm_cast_no_check (eq_refl true). Qed.
Lemma login_apart : shares_only (fun _ _ => false) (named Login) = true.
Proof. vm_cast_no_check (eq_refl true). Qed.
Lemma motd_apart : shares_only (fun _ _ => false) (named Motd) = true.
Proof. vm_cast_no_check (eq_refl true). Qed.
Lemma in_overlaps_ok n m : in_overlaps n m = true -> In (n, m) overlaps.
Proof.
  intros H. apply existsb_exists in H as ([a b] & I & E). apply andb_true_iff in E as [A B]. apply String.eqb_eq in A, B. subst. exact I.
Qed.
Lemma overlap_cases p m n n' : fits p n m -> fits p n' m -> n <> n' -> p = Run /\ (In (n, n') overlaps \/ In (n', n) overlaps).
Proof.
  intros F F' N. apply fits_named in F as (r & I & H), F' as (r' & I' & H'). destruct p.
  - destruct (shares_only_ok _ _ login_apart m n r n' r' I I' N H H'); discriminate.
  - destruct (shares_only_ok _ _ motd_apart m n r n' r' I I' N H H'); discriminate.
  - split; [reflexivity|]. destruct (shares_only_ok _ _ run_overlaps m n r n' r' I I' N H H') as [E|E]; apply in_overlaps_ok in E; auto.
Qed.
