(* C167: boards that were received, drawn by the themes *)
From Coq Require Import Lia.
From Verif Require Import Py UtilModel UtilSpec BoardModel BoardSpec.
From Verif Require XgidModel XgidProofs FibsModel FibsProofs GnuModel GnuSpec GnuProofs GnuMatchProofs ConvertProofs FibsIdProofs ThemeSpec ThemeProofs.
From Verif Require Import XgidSpec FibsSpec ImageModel ImageSpec ImageProofs DecodedSpec DecodedProofs ReceivedSpec.

Lemma real_themed b : wf_side (fst (position b)) -> wf_side (snd (position b)) -> drawable b -> real_board b -> themed b.
Proof.
  intros (A & A') (B & B') D (S1 & S2 & R & C) name w h I. rewrite Forall_forall in A', B'.
  destruct (ThemeProofs.themes_draw name w h I) as (rs & Sh & K).
  destruct (K b) as ((cs & E) & _); [|exists rs, cs; auto].
  split; [intros s [->| ->]; auto|auto].
Qed.
Lemma pictured_drawable b : sides_ok b -> pictured b -> drawable b.
Proof. intros S (t & E & _). apply (proj1 (shown_iff b S)). eauto. Qed.
Lemma xgid_themed m s b : XgidModel.decode m s = (b, Ok tt) -> real_board b -> themed b.
Proof.
  intros E. pose proof (xgid_pictured m s b E) as P.
  destruct (proj1 (proj2 (XgidProofs.xgid_decode m s)) b E) as (x & _ & _ & (R & _)).
  destruct (ConvertProofs.reads_wf _ _ R) as (A & B). intros H. apply real_themed; auto. apply pictured_drawable; [split; [apply A|apply B]|exact P].
Qed.
Lemma fibs_themed m s v b : fibs_line s v -> FibsModel.decode m s = (b, Ok tt) -> real_board b -> themed b.
Proof.
  intros Ln E. pose proof (fibs_pictured m s v b Ln E) as P. destruct (FibsProofs.fibs_decode m s v Ln) as [H1 H2].
  destruct (Z.eq_dec (v 32%nat) (v 41%nat)) as [T|T]; [|destruct (H2 T) as (b' & E' & _); rewrite E in E'; discriminate].
  destruct (H1 T) as (b' & E' & (R & _)). rewrite E in E'. injection E' as <-.
  destruct (FibsIdProofs.line_wf _ _ R) as (A & B). intros H. apply real_themed; auto. apply pictured_drawable; [split; [apply A|apply B]|exact P].
Qed.
Lemma position_wf fuel pid p : (3 <= fuel)%nat -> GnuModel.decode_position fuel pid = Ok p -> wf_side (fst p) /\ wf_side (snd p).
Proof.
  intros F E. destruct GnuMatchProofs.decoder_total as (T1 & T2 & T3).
  destruct (in_dec ascii_dec GnuModel.EQ pid) as [I|I]; [rewrite (T1 _ fuel I) in E; discriminate|].
  destruct (Z.eq_dec (GnuSpec.significant pid mod 4) 1) as [M|M]; [rewrite (T2 _ fuel I M) in E; discriminate|].
  destruct (T3 _ I M) as (r & K & H). rewrite (K fuel F) in E. subst r. destruct H as [H|(q & H & W)]; [discriminate|]. injection H as ->. exact W.
Qed.
Lemma gnu_wf od fuel x pid mid b : (3 <= fuel)%nat -> GnuModel.decode od fuel x pid mid = (b, Ok tt) -> wf_side (fst (position b)) /\ wf_side (snd (position b)).
Proof.
  intros F. unfold GnuModel.decode. destruct (GnuModel.decode_match od fuel mid) as [d|e]; [|discriminate]. cbv zeta.
  match goal with |- context[if ?c then _ else _] => destruct c end; [discriminate|].
  destruct (GnuModel.decode_position fuel pid) as [[a o]|e] eqn:E; [|discriminate].
  apply (position_wf _ _ _ F) in E. cbn [fst snd] in E.
  destruct (GnuModel.get_int d 6 7 =? 0); [intros H; injection H as <-; exact (conj (proj2 E) (proj1 E))|].
  destruct (GnuModel.get_int d 6 7 =? 1); [intros H; injection H as <-; exact E|discriminate].
Qed.
Lemma received_themed :
  (forall m s b, XgidModel.decode m s = (b, Ok tt) -> real_board b -> themed b) /\
  (forall m s v b, fibs_line s v -> FibsModel.decode m s = (b, Ok tt) -> real_board b -> themed b) /\
  (forall od fuel x pid mid b, (3 <= fuel)%nat -> GnuModel.decode od fuel x pid mid = (b, Ok tt) -> drawable b -> real_board b -> themed b).
Proof.
  split; [exact xgid_themed|]. split; [exact fibs_themed|]. intros od fuel x pid mid b F E D H. destruct (gnu_wf _ _ _ _ _ _ F E). apply real_themed; auto.
Qed.
From Verif Require Import ThemeData ThemeModel ThemeAudit.
(* an XGID with dice of eight and nine pips *)
Lemma dice_refuted : exists s b name rs w h, XgidModel.decode default_board s = (b, Ok tt) /\ ThemeSpec.ships name rs w h /\ draw rs b (w, h) = Exc AssertionError.
Proof.
  exists (L "-b----E-C---eE---c-e----B-:0:1:-1:89:1:3:0:7:10"), (fst (XgidModel.decode default_board (L "-b----E-C---eE---c-e----B-:0:1:-1:89:1:3:0:7:10"))).
  destruct (ThemeProofs.ships_all "minimal" 341 262 ltac:(do 4 right; left; reflexivity)) as (rs & S). exists "minimal"%string, rs, 341, 262.
  split; [vm_compute; reflexivity|]. split; [exact S|]. revert S.
  set (b := fst _). intros S.
  assert (K : forall name r w h, ThemeSpec.ships name r w h -> name = "minimal"%string -> draw r b (w, h) = Exc AssertionError).
  { apply (ThemeProofs.ships_cases (fun name r w h => name = "minimal"%string -> draw r b (w, h) = Exc AssertionError)); intros E; try discriminate E. vm_compute. reflexivity. }
  exact (K _ _ _ _ S eq_refl).
Qed.
