(* Lemmas for C46: counting the positions of backgammon *)
From Verif Require Import Py PyFacts BoardSpec BearoffModel BearoffSpec.

(* what one point may hold when r and s chequers are at hand *)
Definition choices (r s : nat) : list (nat * nat) :=
  (0%nat, 0%nat) :: map (fun x => (S x, 0%nat)) (seq 0 r) ++ map (fun y => (0%nat, S y)) (seq 0 s).
Definition bars (r s : nat) : list (nat * nat) := flat_map (fun a => map (fun b => (a, b)) (seq 0 (S s))) (seq 0 (S r)).
Fixpoint cfg (k r s : nat) : list (list (nat * nat)) :=
  match k with
  | O => map (fun ab => [ab]) (bars r s)
  | S k' => flat_map (fun xy => map (cons xy) (cfg k' (r - fst xy) (s - snd xy))) (choices r s)
  end.
Definition sumf {A} (g : A -> nat) (l : list A) : nat := fold_right (fun x a => (g x + a)%nat) 0%nat l.
Definition good (k r s : nat) (l : list (nat * nat)) : Prop :=
  List.length l = S k /\ (forall i, (i < k)%nat -> fst (nth i l (0, 0)%nat) = 0%nat \/ snd (nth i l (0, 0)%nat) = 0%nat) /\
  (sumf fst l <= r)%nat /\ (sumf snd l <= s)%nat.
Lemma in_choices r s x y : In (x, y) (choices r s) <-> (x <= r)%nat /\ (y <= s)%nat /\ (x = 0 \/ y = 0)%nat.
Proof.
  unfold choices. cbn [In]. rewrite in_app_iff, !in_map_iff. split.
  - intros [E|[(a & E & I)|(a & E & I)]]; injection E as <- <-; try apply in_seq in I; lia.
  - intros (A & B & D). destruct x as [|x]; [destruct y as [|y]; [auto|]|].
    + right. right. exists y. split; [reflexivity|]. apply in_seq. lia.
    + right. left. exists x. split; [f_equal; lia|]. apply in_seq. lia.
Qed.
Lemma in_bars r s a b : In (a, b) (bars r s) <-> (a <= r)%nat /\ (b <= s)%nat.
Proof.
  unfold bars. rewrite in_flat_map. split.
  - intros (a' & I & J). apply in_map_iff in J as (b' & E & J). injection E as <- <-. apply in_seq in I, J. lia.
  - intros [A B]. exists a. split; [apply in_seq; lia|]. apply in_map_iff. exists b. split; [reflexivity|apply in_seq; lia].
Qed.
Lemma in_cfg k : forall r s l, In l (cfg k r s) <-> good k r s l.
Proof.
  induction k as [|k IH]; intros r s l; cbn [cfg].
  - rewrite in_map_iff. split.
    + intros ([a b] & <- & I). apply in_bars in I. unfold good, sumf. cbn. repeat split; lia.
    + intros (L & _ & R & S). destruct l as [|[a b] [|]]; try discriminate. exists (a, b). split; [reflexivity|]. apply in_bars. unfold sumf in *. cbn in *. lia.
  - rewrite in_flat_map. split.
    + intros ([x y] & I & J). apply in_choices in I. apply in_map_iff in J as (m & <- & J). apply IH in J as (L & D & R & S). cbn [fst snd] in *.
      unfold good, sumf in *. cbn [List.length fold_right fst snd]. split; [lia|]. split; [|lia]. intros [|i] Hi; cbn [nth fst snd]; [lia|]. apply D. lia.
    + intros (L & D & R & Q). destruct l as [|[x y] m]; [discriminate|]. exists (x, y). unfold sumf in *. cbn [fold_right fst snd List.length] in *.
      split; [apply in_choices; pose proof (D 0%nat ltac:(lia)) as D0; cbn in D0; lia|]. apply in_map_iff. exists m. split; [reflexivity|]. apply IH.
      split; [lia|]. split; [intros i Hi; apply (D (S i)); lia|unfold sumf; lia].
Qed.
Lemma NoDup_flat_map {A B} (f : A -> list B) l : NoDup l -> (forall x, In x l -> NoDup (f x)) ->
  (forall x y b, In x l -> In y l -> In b (f x) -> In b (f y) -> x = y) -> NoDup (flat_map f l).
Proof.
  induction 1 as [|x l N ND IH]; intros F D; [constructor|]. cbn [flat_map].
  assert (App : forall (u v : list B), NoDup u -> NoDup v -> (forall b, In b u -> ~ In b v) -> NoDup (u ++ v)).
  { clear. induction 1 as [|b u Nb Nu IH]; intros V H; [exact V|]. cbn. constructor.
    - rewrite in_app_iff. intros [I|I]; [contradiction|]. apply (H b); [left; reflexivity|exact I].
    - apply IH; [exact V|]. intros c I. apply H. right. exact I. }
  apply App.
  - apply F. left. reflexivity.
  - apply IH; [intros y I; apply F; right; exact I|]. intros y z b I J. apply D; right; assumption.
  - intros b I J. apply in_flat_map in J as (y & Iy & Jb). assert (x = y) by (apply (D x y b); [left; reflexivity|right; exact Iy|exact I|exact Jb]). subst. contradiction.
Qed.
Lemma NoDup_map {A B} (f : A -> B) l : NoDup l -> (forall x y, In x l -> In y l -> f x = f y -> x = y) -> NoDup (map f l).
Proof.
  induction 1 as [|x l N ND IH]; intros F; [constructor|]. cbn [map]. constructor.
  - rewrite in_map_iff. intros (y & E & I). assert (y = x) by (apply F; [right; exact I|left; reflexivity|exact E]). subst. contradiction.
  - apply IH. intros y z I J. apply F; right; assumption.
Qed.
Lemma nodup_choices r s : NoDup (choices r s).
Proof.
  unfold choices. constructor.
  - rewrite in_app_iff, !in_map_iff. intros [(a & E & _)|(a & E & _)]; discriminate.
  - replace (map (fun x => (S x, 0%nat)) (seq 0 r) ++ map (fun y => (0%nat, S y)) (seq 0 s))
      with (flat_map (fun b : bool => if b then map (fun x => (S x, 0%nat)) (seq 0 r) else map (fun y => (0%nat, S y)) (seq 0 s)) [true; false]) by (cbn [flat_map]; rewrite app_nil_r; reflexivity).
    apply NoDup_flat_map.
    + constructor; [intros [|[]]; discriminate|]. constructor; [intros []|constructor].
    + intros [|] _; apply NoDup_map; try apply seq_NoDup; intros x y _ _ E; congruence.
    + intros [|] [|] b _ _ I J; try reflexivity; apply in_map_iff in I as (u & Eu & _); apply in_map_iff in J as (v & Ev & _); subst b; discriminate.
Qed.
Lemma nodup_bars r s : NoDup (bars r s).
Proof.
  unfold bars. apply NoDup_flat_map; [apply seq_NoDup| |].
  - intros a _. apply NoDup_map; [apply seq_NoDup|]. congruence.
  - intros x y b _ _ I J. apply in_map_iff in I as (u & Eu & _). apply in_map_iff in J as (v & Ev & _). congruence.
Qed.
Lemma nodup_cfg k : forall r s, NoDup (cfg k r s).
Proof.
  induction k as [|k IH]; intros r s; cbn [cfg].
  - apply NoDup_map; [apply nodup_bars|]. congruence.
  - apply NoDup_flat_map; [apply nodup_choices| |].
    + intros x _. apply NoDup_map; [apply IH|]. congruence.
    + intros x y b _ _ I J. apply in_map_iff in I as (u & Eu & _). apply in_map_iff in J as (v & Ev & _). congruence.
Qed.

(* ---------- the count ---------- *)
Definition zsum (l : list Z) : Z := fold_right Z.add 0 l.
Definition idx : list nat := seq 0 16.
Definition get (t : list (list Z)) (r s : nat) : Z := nth s (nth r t []) 0.
Fixpoint table (k : nat) : list (list Z) :=
  match k with
  | O => map (fun r => map (fun s => Z.of_nat (S r) * Z.of_nat (S s)) idx) idx
  | S k' => let t := table k' in
      map (fun r => map (fun s => zsum (map (fun xy => get t (r - fst xy) (s - snd xy)) (choices r s))) idx) idx
  end.
Lemma get_map g r s : (r < 16)%nat -> (s < 16)%nat -> get (map (fun r => map (fun s => g r s) idx) idx) r s = g r s.
Proof.
  intros R S. unfold get. assert (E : forall (A : Type) (h : nat -> A) i d, (i < 16)%nat -> nth i (map h idx) d = h i).
  { intros A h i d Hi. rewrite nth_indep with (d' := h 0%nat) by (rewrite map_length; exact Hi). rewrite (map_nth h). f_equal. apply seq_nth. exact Hi. }
  rewrite (E _ (fun r => map (fun s => g r s) idx)) by exact R. apply (E _ (fun s => g r s)). exact S.
Qed.
Lemma flat_map_zlength {A B} (f : A -> list B) l : Z.of_nat (List.length (flat_map f l)) = zsum (map (fun x => Z.of_nat (List.length (f x))) l).
Proof. induction l as [|x l IH]; [reflexivity|]. cbn [flat_map map zsum fold_right]. rewrite app_length, Nat2Z.inj_add, IH. reflexivity. Qed.
Lemma zsum_ext {A} (f g : A -> Z) l : (forall x, In x l -> f x = g x) -> zsum (map f l) = zsum (map g l).
Proof. induction l as [|x l IH]; intros H; [reflexivity|]. cbn. rewrite H by (left; reflexivity). f_equal. apply IH. intros y I. apply H. right. exact I. Qed.
Lemma bars_length r s : List.length (bars r s) = (S r * S s)%nat.
Proof.
  unfold bars. generalize (S r) as a, (S s) as b. intros a b. generalize 0%nat at 2. induction a as [|a IH]; intros o; [reflexivity|].
  cbn [seq flat_map]. rewrite app_length, map_length, seq_length, IH. reflexivity.
Qed.
Lemma cfg_length k : forall r s, (r < 16)%nat -> (s < 16)%nat -> Z.of_nat (List.length (cfg k r s)) = get (table k) r s.
Proof.
  induction k as [|k IH]; intros r s R S; cbn [cfg table].
  - rewrite (get_map (fun r s => Z.of_nat (Datatypes.S r) * Z.of_nat (Datatypes.S s))) by assumption. rewrite map_length, bars_length. lia.
  - cbv zeta. rewrite (get_map (fun r s => zsum (map (fun xy => get (table k) (r - fst xy) (s - snd xy)) (choices r s)))) by assumption.
    rewrite flat_map_zlength. apply zsum_ext. intros [x y] I. apply in_choices in I. cbn [fst snd]. rewrite map_length. apply IH; lia.
Qed.

(* ---------- positions ---------- *)
(* the 24 points turned round, the bar kept last *)
Definition turn {A} (l : list A) : list A := rev (firstn 24 l) ++ skipn 24 l.
Definition to_pos (l : list (nat * nat)) : list Z * list Z :=
  (map (fun p => Z.of_nat (fst p)) l, turn (map (fun p => Z.of_nat (snd p)) l)).
Definition of_pos (p : list Z * list Z) : list (nat * nat) :=
  combine (map Z.to_nat (fst p)) (map Z.to_nat (turn (snd p))).
Ltac split25 l :=
  do 25 (let x := fresh "x" in destruct l as [|x l]; [discriminate|]); destruct l; [|discriminate].
Lemma turn_turn {A} (l : list A) : List.length l = 25%nat -> turn (turn l) = l.
Proof. intros L. split25 l. reflexivity. Qed.
Lemma turn_length {A} (l : list A) : List.length l = 25%nat -> List.length (turn l) = 25%nat.
Proof. intros L. split25 l. reflexivity. Qed.
Lemma nth_turn (l : list Z) k d : List.length l = 25%nat -> (k < 24)%nat -> nth (23 - k) (turn l) d = nth k l d.
Proof. intros L H. split25 l. do 24 (destruct k as [|k]; [reflexivity|]). lia. Qed.
Lemma total_app2 a b : total (a ++ b) = total a + total b.
Proof. unfold total. induction a as [|x a IH]; cbn; [reflexivity|]. rewrite IH. lia. Qed.
Lemma total_rev2 t : total (rev t) = total t.
Proof. induction t as [|x t IH]; [reflexivity|]. cbn [rev]. rewrite total_app2, IH. unfold total. cbn [fold_right]. lia. Qed.
Lemma total_turn l : total (turn l) = total l.
Proof. unfold turn. rewrite total_app2, total_rev2, <- total_app2, firstn_skipn. reflexivity. Qed.
Lemma Forall_turn {A} (P : A -> Prop) l : Forall P l -> Forall P (turn l).
Proof. intros H. rewrite <- (firstn_skipn 24 l) in H. apply Forall_app in H as [A1 A2]. apply Forall_app. split; [apply Forall_rev, A1|exact A2]. Qed.
Lemma sum_total {A} (g : A -> nat) l : total (map (fun p => Z.of_nat (g p)) l) = Z.of_nat (sumf g l).
Proof. induction l as [|x l IH]; [reflexivity|]. unfold total, sumf in *. cbn [map fold_right]. lia. Qed.
Lemma of_to l : List.length l = 25%nat -> of_pos (to_pos l) = l.
Proof.
  intros L. unfold of_pos, to_pos. cbn [fst snd]. rewrite turn_turn by (rewrite map_length; exact L). rewrite !map_map. clear L.
  induction l as [|[x y] l IH]; [reflexivity|]. cbn [map combine fst snd]. rewrite IH, !Nat2Z.id. reflexivity.
Qed.
Lemma combine_maps (u v : list Z) : List.length u = List.length v -> Forall (fun x => 0 <= x) u -> Forall (fun x => 0 <= x) v ->
  map (fun p => Z.of_nat (fst p)) (combine (map Z.to_nat u) (map Z.to_nat v)) = u /\
  map (fun p => Z.of_nat (snd p)) (combine (map Z.to_nat u) (map Z.to_nat v)) = v.
Proof.
  revert v. induction u as [|x u IH]; intros [|y v] L Fu Fv; try discriminate; [auto|]. inversion Fu; inversion Fv; subst. destruct (IH v) as [A B]; auto.
  cbn [map combine fst snd]. rewrite A, B, !Z2Nat.id by assumption. auto.
Qed.
Lemma to_of p : wf_side (fst p) -> wf_side (snd p) -> to_pos (of_pos p) = p /\ List.length (of_pos p) = 25%nat.
Proof.
  intros [L1 F1] [L2 F2]. unfold to_pos, of_pos. destruct (combine_maps (fst p) (turn (snd p))) as [A B].
  - rewrite turn_length; lia.
  - exact F1.
  - apply Forall_turn, F2.
  - rewrite A, B, turn_turn by exact L2. split; [symmetry; apply surjective_pairing|]. rewrite combine_length, !map_length, turn_length; lia.
Qed.
Lemma good_legal l : List.length l = 25%nat -> (good 24 15 15 l <-> legal_position (to_pos l)).
Proof.
  intros L. unfold good, legal_position, to_pos. cbn [fst snd].
  assert (W : forall g : nat * nat -> nat, wf_side (map (fun p => Z.of_nat (g p)) l)).
  { intros g. split; [rewrite map_length; exact L|]. apply Forall_forall. intros x I. apply in_map_iff in I as (y & <- & _). lia. }
  assert (W2 : wf_side (turn (map (fun p => Z.of_nat (snd p)) l))) by (destruct (W snd) as [A B]; split; [apply turn_length, A|apply Forall_turn, B]).
  rewrite total_turn, !sum_total.
  assert (G : forall g : nat * nat -> nat, g (0, 0)%nat = 0%nat -> forall k, nth k (map (fun p => Z.of_nat (g p)) l) 0 = Z.of_nat (g (nth k l (0, 0)%nat))).
  { intros g G0 k. rewrite <- (map_nth (fun p => Z.of_nat (g p))). rewrite G0. reflexivity. }
  split.
  - intros (_ & D & R & S). split; [split; [apply W|lia]|]. split; [split; [exact W2|lia]|]. intros k Hk.
    rewrite nth_turn by (rewrite ?map_length; lia). rewrite (G fst), (G snd) by reflexivity. destruct (D k Hk) as [-> | ->]; auto.
  - intros ((_ & R) & (_ & S) & D). split; [exact L|]. split; [|lia]. intros k Hk. specialize (D k Hk).
    rewrite nth_turn in D by (rewrite ?map_length; lia). rewrite (G fst), (G snd) in D by reflexivity. lia.
Qed.
(* C46 *)
Lemma count_24 : get (table 24) 15 15 = WTN.
Proof. vm_compute. reflexivity. Qed.
Lemma position_count : exists l : list (list Z * list Z),
  NoDup l /\ (forall p, In p l <-> legal_position p) /\ Z.of_nat (List.length l) = WTN.
Proof.
  exists (map to_pos (cfg 24 15 15)). split; [|split].
  - apply NoDup_map; [apply nodup_cfg|]. intros a b A B E. apply in_cfg in A as [A _], B as [B _]. rewrite <- (of_to a A), <- (of_to b B), E. reflexivity.
  - intros p. rewrite in_map_iff. split.
    + intros (l & <- & I). apply in_cfg in I. apply good_legal; [apply I|exact I].
    + intros P. assert (P' := P). destruct P' as ((W1 & _) & (W2 & _) & _). destruct (to_of p W1 W2) as [A B]. exists (of_pos p). split; [exact A|]. apply in_cfg. apply good_legal; [exact B|]. rewrite A. exact P.
  - rewrite map_length, cfg_length by lia. apply count_24.
Qed.
Lemma combination_sums : fold_right Z.add 0 (map BackgammonCombination (zrange 0 16)) = WTN /\
  forall m, In m (zrange 0 16) -> BackgammonCombination m = BackgammonCombination_allC m.
Proof.
  split; [vm_compute; reflexivity|].
  assert (E : forallb (fun m => BackgammonCombination m =? BackgammonCombination_allC m) (zrange 0 16) = true) by (vm_compute; reflexivity).
  rewrite forallb_forall in E. intros m I. apply Z.eqb_eq, E, I.
Qed.
Lemma number_of_positions :
  (exists l : list (list Z * list Z), NoDup l /\ (forall p, In p l <-> legal_position p) /\ Z.of_nat (List.length l) = WTN) /\
  fold_right Z.add 0 (map BackgammonCombination (zrange 0 16)) = WTN /\
  (forall m, 0 <= m <= 15 -> BackgammonCombination m = BackgammonCombination_allC m).
Proof.
  destruct combination_sums as (A & D).
  split; [exact position_count|]. split; [exact A|]. intros m H. apply D, In_zrange. lia.
Qed.
