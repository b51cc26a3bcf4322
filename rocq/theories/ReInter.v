(* Which patterns of a list have a string in common: a search over pairs of derivatives. *)
From Verif Require Import Py Re ReFacts.

Definition all_bytes : list ascii := map ascii_of_nat (seq 0 256).
Lemma all_bytes_ok c : In c all_bytes.
Proof.
  apply in_map_iff. exists (nat_of_ascii c). split; [apply ascii_nat_embedding|]. apply in_seq. pose proof (nat_ascii_bounded c). lia.
Qed.
Local Arguments all_bytes : simpl never.
Lemma chr_leb_ok a b : chr_leb a b = (zord a <=? zord b).
Proof.
  assert (H : (let l := all_bytes in forallb (fun a => forallb (fun b => Bool.eqb (chr_leb a b) (zord a <=? zord b)) l) l) = true) by (vm_compute; reflexivity).
  cbv zeta in H. rewrite forallb_forall in H. specialize (H a (all_bytes_ok a)). rewrite forallb_forall in H. exact (Bool.eqb_prop _ _ (H b (all_bytes_ok b))).
Qed.
Fixpoint ranges_eqb (a b : list (ascii * ascii)) : bool :=
  match a, b with
  | [], [] => true
  | (x, y) :: a, (z, t) :: b => if Ascii.eqb x z then if Ascii.eqb y t then ranges_eqb a b else false else false
  | _, _ => false
  end.
Definition cset_eqb (a b : cset) : bool :=
  match a, b with
  | One x, One y => Ascii.eqb x y
  | Ranges n l, Ranges m k => if Bool.eqb n m then ranges_eqb l k else false
  | _, _ => false
  end.
Fixpoint re_eqb (a b : re) : bool :=
  match a, b with
  | Emp, Emp | Eps, Eps => true
  | Chr p, Chr q => cset_eqb p q
  | Cat a1 a2, Cat b1 b2 | Alt a1 a2, Alt b1 b2 => if re_eqb a1 b1 then re_eqb a2 b2 else false
  | Star a, Star b => re_eqb a b
  | _, _ => false
  end.
Lemma ranges_eqb_ok : forall a b, ranges_eqb a b = true -> a = b.
Proof.
  induction a as [|[x y] a IH]; intros [|[z t] b] E; cbn in E; try discriminate; auto.
  destruct (Ascii.eqb_spec x z); [|discriminate]. destruct (Ascii.eqb_spec y t); [|discriminate]. f_equal; [congruence|auto].
Qed.
Lemma cset_eqb_ok a b : cset_eqb a b = true -> a = b.
Proof.
  destruct a, b; cbn; try discriminate; [intros H; apply Ascii.eqb_eq in H; congruence|].
  destruct (Bool.eqb _ _) eqn:E; [|discriminate]. intros H. apply Bool.eqb_prop in E. apply ranges_eqb_ok in H. congruence.
Qed.
Lemma re_eqb_ok : forall a b, re_eqb a b = true -> a = b.
Proof.
  induction a as [| |p|a1 IH1 a2 IH2|a1 IH1 a2 IH2|a IH]; intros [| |q|b1 b2|b1 b2|b] E; cbn in E; try discriminate; auto.
  - apply cset_eqb_ok in E. congruence.
  - destruct (re_eqb a1 b1) eqn:E1; [|discriminate]. f_equal; auto.
  - destruct (re_eqb a1 b1) eqn:E1; [|discriminate]. f_equal; auto.
  - f_equal; auto.
Qed.

(* only one character of each class of characters the patterns do not tell apart needs to be tried *)
Fixpoint csets (r : re) : list cset :=
  match r with Chr p => [p] | Cat a b | Alt a b => csets a ++ csets b | Star a => csets a | _ => [] end.
Definition alike (ks : list cset) (c d : ascii) : bool := forallb (fun k => Bool.eqb (inset k c) (inset k d)) ks.
Fixpoint dedup (ks : list cset) (todo reps : list ascii) : list ascii :=
  match todo with
  | [] => reps
  | c :: todo => dedup ks todo (if existsb (alike ks c) reps then reps else c :: reps)
  end.
Fixpoint undup (ks acc : list cset) : list cset :=
  match ks with [] => acc | k :: ks => undup ks (if existsb (cset_eqb k) acc then acc else k :: acc) end.
Lemma undup_ok : forall ks acc k, In k ks \/ In k acc -> In k (undup ks acc).
Proof.
  induction ks as [|x ks IH]; intros acc k H; cbn; [destruct H as [[]|H]; exact H|]. apply IH.
  destruct H as [[->|H]|H]; auto; right; destruct (existsb _ acc) eqn:E; auto; [|left; auto|right; auto].
  apply existsb_exists in E as (y & I & Q). apply cset_eqb_ok in Q. subst. auto.
Qed.
Definition reps (ks : list cset) : list ascii := dedup ks all_bytes [].
Lemma alike_refl ks c : alike ks c c = true.
Proof. apply forallb_forall. intros k _. apply Bool.eqb_reflx. Qed.
Lemma dedup_keeps ks : forall todo rs r, In r rs -> In r (dedup ks todo rs).
Proof.
  induction todo as [|x todo IH]; intros rs r I; cbn; auto. apply IH. destruct (existsb _ rs); [|right]; auto.
Qed.
Lemma dedup_ok ks : forall todo rs c, In c todo -> exists r, In r (dedup ks todo rs) /\ alike ks c r = true.
Proof.
  induction todo as [|x todo IH]; intros rs c []; cbn; [subst|auto].
  destruct (existsb (alike ks c) rs) eqn:E.
  - apply existsb_exists in E as (r & I & A). exists r. split; auto. apply dedup_keeps; auto.
  - exists c. split; [apply dedup_keeps; left; auto|apply alike_refl].
Qed.
Lemma reps_ok ks c : exists r, In r (reps ks) /\ alike ks c r = true.
Proof. unfold reps. generalize all_bytes (all_bytes_ok c). intros l H. apply dedup_ok. exact H. Qed.
Lemma mkcat_csets a b k : In k (csets (mkcat a b)) -> In k (csets a ++ csets b).
Proof. destruct a, b; cbn; rewrite ?in_app_iff; cbn; tauto. Qed.
Lemma mkalt_csets a b k : In k (csets (mkalt a b)) -> In k (csets a ++ csets b).
Proof. destruct a, b; cbn; rewrite ?in_app_iff; cbn; tauto. Qed.
Lemma deriv_csets c : forall r k, In k (csets (deriv c r)) -> In k (csets r).
Proof.
  induction r as [| |p|a IHa b IHb|a IHa b IHb|a IH]; intros k H; cbn [deriv] in H; auto.
  - destruct (inset p c); destruct H.
  - cbn [csets]. rewrite in_app_iff. destruct (nullable a).
    + apply mkalt_csets in H. apply in_app_iff in H as [H|H]; auto. apply mkcat_csets in H. apply in_app_iff in H as [H|H]; auto.
    + apply mkcat_csets in H. apply in_app_iff in H as [H|H]; auto.
  - cbn [csets]. rewrite in_app_iff. apply mkalt_csets in H. apply in_app_iff in H as [H|H]; auto.
  - apply mkcat_csets in H. apply in_app_iff in H as [H|H]; auto.
Qed.
Lemma deriv_alike ks c d : alike ks c d = true -> forall r, (forall k, In k (csets r) -> In k ks) -> deriv c r = deriv d r.
Proof.
  intros A. unfold alike in A. rewrite forallb_forall in A.
  induction r as [| |p|a IHa b IHb|a IHa b IHb|a IH]; intros H; cbn in *; auto.
  - specialize (A p (H p (or_introl eq_refl))). apply Bool.eqb_prop in A. rewrite A. auto.
  - rewrite IHa, IHb by (intros; apply H, in_app_iff; auto). auto.
  - rewrite IHa, IHb by (intros; apply H, in_app_iff; auto). auto.
  - rewrite IH by auto. auto.
Qed.


(* alternatives listed once, so that only finitely many derivatives arise *)
Fixpoint alts (r : re) : list re := match r with Alt a b => alts a ++ alts b | Emp => [] | _ => [r] end.
Fixpoint once (l acc : list re) : list re :=
  match l with [] => acc | r :: l => once l (if existsb (re_eqb r) acc then acc else r :: acc) end.
Definition norm (r : re) : re := match r with Alt _ _ => fold_right mkalt Emp (once (alts r) []) | _ => r end.
Lemma emp_lang s : ~ lang Emp s.
Proof. intros H. inversion H. Qed.
Lemma alt_inv a b s : lang (Alt a b) s <-> lang a s \/ lang b s.
Proof. split; [intros H; inversion H; auto|intros [H|H]; [apply l_left|apply l_right]; exact H]. Qed.
Lemma alts_lang r s : lang r s <-> exists q, In q (alts r) /\ lang q s.
Proof.
  induction r as [| |p|a IHa b IHb|a IHa b IHb|a IH]; cbn [alts].
  2,3,4,6: split; [intros H; eexists; split; [left; reflexivity|exact H]|intros (q & [<-|[]] & H); exact H].
  - split; [intros H; destruct (emp_lang _ H)|intros (q & [] & _)].
  - rewrite alt_inv, IHa, IHb. split.
    + intros [(q & I & H)|(q & I & H)]; exists q; rewrite in_app_iff; auto.
    + intros (q & I & H). apply in_app_iff in I as [I|I]; [left|right]; exists q; auto.
Qed.
Lemma once_in : forall l acc q, In q (once l acc) <-> In q l \/ In q acc.
Proof.
  induction l as [|x l IH]; intros acc q; cbn; [tauto|]. rewrite IH. destruct (existsb (re_eqb x) acc) eqn:E; cbn; [|tauto].
  apply existsb_exists in E as (y & I & Q). apply re_eqb_ok in Q. subst. split; [tauto|]. intros [[->|H]|H]; auto.
Qed.
Lemma fold_alt_lang l s : lang (fold_right mkalt Emp l) s <-> exists q, In q l /\ lang q s.
Proof.
  induction l as [|x l IH]; cbn [fold_right].
  - split; [intros H; destruct (emp_lang _ H)|intros (q & [] & _)].
  - rewrite mkalt_ok, alt_inv, IH. split.
    + intros [H|(q & I & H)]; eexists; split; eauto; [left|right]; auto.
    + intros (q & [<-|I] & H); eauto.
Qed.
Lemma norm_lang r s : lang (norm r) s <-> lang r s.
Proof.
  destruct r as [| |p|a b|a b|a]; try reflexivity. unfold norm. rewrite fold_alt_lang, (alts_lang (Alt a b)).
  split; intros (q & I & H); exists q; split; auto; [apply once_in in I as [I|[]]; exact I|apply once_in; auto].
Qed.
Lemma alts_csets : forall r q k, In q (alts r) -> In k (csets q) -> In k (csets r).
Proof.
  induction r as [| |p|a IHa b IHb|a IHa b IHb|a IH]; intros q k I K; cbn [alts] in I.
  2,3,4,6: destruct I as [<-|[]]; exact K.
  - destruct I.
  - cbn [csets]. rewrite in_app_iff. apply in_app_iff in I as [I|I]; [left|right]; eauto.
Qed.
Lemma fold_alt_csets l k : In k (csets (fold_right mkalt Emp l)) -> exists q, In q l /\ In k (csets q).
Proof.
  induction l as [|x l IH]; cbn [fold_right]; [intros []|]. intros H. apply mkalt_csets in H. apply in_app_iff in H as [H|H].
  - exists x. split; [left|]; auto.
  - destruct (IH H) as (q & I & K). exists q. split; [right|]; auto.
Qed.
Lemma norm_csets r k : In k (csets (norm r)) -> In k (csets r).
Proof.
  destruct r as [| |p|a b|a b|a]; auto. unfold norm. intros H. apply fold_alt_csets in H as (q & I & K).
  apply once_in in I as [I|[]]. exact (alts_csets _ _ _ I K).
Qed.
(* ---- pairs of patterns, derived together ---- *)
Definition is_emp (r : re) : bool := match r with Emp => true | _ => false end.
Lemma is_emp_eq r : is_emp r = true -> r = Emp.
Proof. destruct r; cbn; congruence. Qed.
Definition step (c : ascii) (r : re) : re := norm (deriv c r).
Lemma step_ok c r s : lang (step c r) s <-> lang r (c :: s).
Proof. unfold step. rewrite norm_lang. apply deriv_ok. Qed.
Lemma step_csets c r k : In k (csets (step c r)) -> In k (csets r).
Proof. intros H. apply norm_csets in H. exact (deriv_csets _ _ _ H). Qed.
Lemma step_alike ks c d r : alike ks c d = true -> (forall k, In k (csets r) -> In k ks) -> step c r = step d r.
Proof. intros A H. unfold step. rewrite (deriv_alike ks c d A r H). reflexivity. Qed.
Section Explore.
Variable rs : list ascii.
Fixpoint explore (fuel : nat) (work seen : list (re * re)) : bool * list (re * re) :=
  match fuel with
  | 0%nat => (false, [])
  | S fuel =>
      match work with
      | [] => (true, seen)
      | (a, b) :: work =>
          if is_emp a then explore fuel work seen
          else if is_emp b then explore fuel work seen
          else if nullable a && nullable b then (false, [])
          else if existsb (fun '(x, y) => if re_eqb a x then re_eqb b y else false) seen then explore fuel work seen
          else explore fuel (map (fun c => (step c a, step c b)) rs ++ work) ((a, b) :: seen)
      end
  end.
Definition cov (q : re * re) (seen : list (re * re)) : Prop := fst q = Emp \/ snd q = Emp \/ In q seen.
Definition good (work seen : list (re * re)) : Prop :=
  forall a b, In (a, b) seen -> nullable a && nullable b = false /\
    forall c, In c rs -> In (step c a, step c b) work \/ cov (step c a, step c b) seen.
Lemma cov_more q x seen : cov q seen -> cov q (x :: seen).
Proof. intros [H|[H|H]]; unfold cov; auto. right; right; right; auto. Qed.
Lemma explore_good : forall fuel work seen out, good work seen -> explore fuel work seen = (true, out) ->
  good [] out /\ (forall q, In q work -> cov q out) /\ (forall q, cov q seen -> cov q out).
Proof.
  induction fuel as [|fuel IH]; intros work seen out G E; cbn [explore] in E; [discriminate|].
  destruct work as [|[a b] work]; [injection E as <-; split; [exact G|]; split; auto; intros q []|].
  assert (SKIP : cov (a, b) seen -> explore fuel work seen = (true, out) -> good [] out /\ (forall q, In q ((a, b) :: work) -> cov q out) /\ (forall q, cov q seen -> cov q out)).
  { intros C E'. destruct (IH work seen out) as (A & B & D); auto.
    - intros x y I. destruct (G x y I) as [N F]. split; auto. intros c IC. destruct (F c IC) as [[F'|F']|F']; auto. rewrite <- F'. auto.
    - split; auto. split; auto. intros q [<-|I]; auto. }
  destruct (is_emp a) eqn:D; [apply SKIP; auto; left; destruct a; cbn in *; congruence|].
  destruct (is_emp b) eqn:D'; [apply SKIP; auto; right; left; destruct b; cbn in *; congruence|].
  destruct (nullable a && nullable b) eqn:N; [discriminate|].
  destruct (existsb _ seen) eqn:X.
  { apply SKIP; auto. apply existsb_exists in X as ([x y] & I & Q). right; right. destruct (re_eqb a x) eqn:Q1; [|discriminate].
    apply re_eqb_ok in Q, Q1. subst. auto. }
  destruct (IH (map (fun c => (step c a, step c b)) rs ++ work) ((a, b) :: seen) out) as (A & B & C); auto.
  - intros x y [Q|I].
    + injection Q as <- <-. split; auto. intros c IC. left. apply in_app_iff. left. apply in_map_iff. exists c. split; auto.
    + destruct (G x y I) as [M F]. split; auto. intros c IC. destruct (F c IC) as [[F'|F']|F'].
      * right. rewrite <- F'. right; right; left; auto.
      * left. apply in_app_iff. auto.
      * right. apply cov_more; auto.
  - split; auto. split.
    + intros q [<-|I]; [apply C; right; right; left; auto|apply B; apply in_app_iff; auto].
    + intros q Q. apply C, cov_more. auto.
Qed.
End Explore.
Lemma good_disjoint ks out : good (reps ks) [] out -> forall s a b, cov (a, b) out ->
  (forall k, In k (csets a) -> In k ks) -> (forall k, In k (csets b) -> In k ks) -> lang a s -> lang b s -> False.
Proof.
  intros G. induction s as [|c s IH]; intros a b C KA KB A B;
    (destruct C as [E|[E|I]]; cbn in *; [subst; destruct (emp_lang _ A)|subst; destruct (emp_lang _ B)|]); destruct (G a b I) as [N F].
  - apply nullable_ok in A, B. rewrite A, B in N. discriminate.
  - destruct (reps_ok ks c) as (r & R & AL). destruct (F r R) as [[]|F'].
    rewrite <- (step_alike ks c r a AL KA), <- (step_alike ks c r b AL KB) in F'.
    apply (IH _ _ F').
    + intros k K. apply KA. exact (step_csets _ _ _ K).
    + intros k K. apply KB. exact (step_csets _ _ _ K).
    + apply step_ok. exact A.
    + apply step_ok. exact B.
Qed.
Definition plenty : nat := (500 * 400)%nat.
(* a named pattern with its derivatives by the characters of [rs] *)
Definition entry : Type := string * re * list re.
Definition mkentry (rs : list ascii) (x : string * re) : entry := (fst x, snd x, map (fun c => step c (snd x)) rs).
Definition apart (rs : list ascii) (x y : entry) : bool :=
  if nullable (snd (fst x)) && nullable (snd (fst y)) then false
  else fst (explore rs plenty (filter (fun '(a, b) => negb (is_emp a || is_emp b)) (combine (snd x) (snd y))) []).
(* every two patterns of the list with different names either are apart or their names are [ok] *)
Fixpoint only_share (rs : list ascii) (ok : string -> string -> bool) (l : list entry) : bool :=
  match l with
  | [] => true
  | x :: l' => if forallb (fun y => if ok (fst (fst x)) (fst (fst y)) then true else apart rs x y) l' then only_share rs ok l' else false
  end.
Lemma combine_map {A B C} (f : A -> B) (g : A -> C) : forall l, combine (map f l) (map g l) = map (fun x => (f x, g x)) l.
Proof. induction l as [|x l IH]; cbn; [|rewrite IH]; auto. Qed.
Lemma apart_ok ks n a m b : apart (reps ks) (mkentry (reps ks) (n, a)) (mkentry (reps ks) (m, b)) = true ->
  (forall k, In k (csets a) -> In k ks) -> (forall k, In k (csets b) -> In k ks) -> forall s, lang a s -> lang b s -> False.
Proof.
  unfold apart, mkentry. cbn [fst snd]. generalize plenty as fuel. intros fuel E KA KB s A B.
  destruct (nullable a && nullable b) eqn:N; [discriminate|]. rewrite combine_map in E.
  destruct (explore (reps ks) fuel _ _) as [[|] out] eqn:X; [|discriminate]. apply explore_good in X as (G & C & _).
  2:{ intros x y []. }
  destruct s as [|c s].
  - apply nullable_ok in A, B. rewrite A, B in N. discriminate.
  - destruct (reps_ok ks c) as (r & R & AL). apply step_ok in A, B.
    assert (CV : cov (step c a, step c b) out).
    { rewrite (step_alike ks c r a AL KA), (step_alike ks c r b AL KB).
      destruct (is_emp (step r a)) eqn:EA; [left; exact (is_emp_eq _ EA)|].
      destruct (is_emp (step r b)) eqn:EB; [right; left; exact (is_emp_eq _ EB)|].
      apply C. apply filter_In. split; [|cbv beta iota; rewrite EA, EB; reflexivity]. apply in_map_iff. exists r. split; [reflexivity|exact R]. }
    refine (good_disjoint ks out G s _ _ CV _ _ A B).
    + intros k K. apply KA. exact (step_csets _ _ _ K).
    + intros k K. apply KB. exact (step_csets _ _ _ K).
Qed.
Definition all_csets (l : list (string * re)) : list cset := undup (flat_map (fun x => csets (snd x)) l) [].
Definition shares_only (ok : string -> string -> bool) (l : list (string * re)) : bool :=
  let rs := reps (all_csets l) in only_share rs ok (map (mkentry rs) l).
Lemma only_share_ok ks ok : forall l, only_share (reps ks) ok (map (mkentry (reps ks)) l) = true ->
  (forall x k, In x l -> In k (csets (snd x)) -> In k ks) ->
  forall s n a m b, In (n, a) l -> In (m, b) l -> n <> m -> lang a s -> lang b s -> ok n m = true \/ ok m n = true.
Proof.
  induction l as [|x l IH]; intros E K s n a m b IA IB N A B; [destruct IA|].
  cbn [map only_share] in E. destruct (forallb _ _) eqn:E1 in E; [|discriminate]. rename E into E2. rewrite forallb_forall in E1.
  assert (Q : forall n' a' m' b', x = (n', a') -> In (m', b') l -> lang a' s -> lang b' s -> ok n' m' = true).
  { intros n' a' m' b' -> I A' B'. specialize (E1 (mkentry (reps ks) (m', b'))). cbn [mkentry fst snd] in E1. destruct (ok n' m'); [reflexivity|].
    exfalso. refine (apart_ok ks n' a' m' b' (E1 _) _ _ s A' B').
    - apply in_map_iff. exists (m', b'). split; [reflexivity|exact I].
    - intros k KK. apply (K (n', a')); [left; reflexivity|exact KK].
    - intros k KK. apply (K (m', b')); [right; exact I|exact KK]. }
  destruct IA as [->|IA], IB as [EB|IB].
  - congruence.
  - left. apply (Q n a m b); auto.
  - subst x. right. apply (Q m b n a); auto.
  - refine (IH E2 _ s n a m b IA IB N A B). intros y k I KK. apply (K y k); [right; exact I|exact KK].
Qed.
Lemma shares_only_ok ok l : shares_only ok l = true ->
  forall s n a m b, In (n, a) l -> In (m, b) l -> n <> m -> lang a s -> lang b s -> ok n m = true \/ ok m n = true.
Proof.
  intros E. refine (only_share_ok (all_csets l) ok l E _). intros x k I K.
  apply undup_ok. left. apply in_flat_map. exists x. split; [exact I|exact K].
Qed.
