(* C165: pictures of boards that were decoded *)
From Coq Require Import Lia.
From Verif Require Import Py UtilModel UtilSpec BoardModel BoardSpec.
From Verif Require XgidModel XgidProofs FibsModel FibsProofs GnuModel GnuSpec GnuProofs GnuMatchProofs.
From Verif Require Import XgidSpec FibsSpec ImageModel ImageSpec ImageProofs DecodedSpec.
Open Scope string_scope.
Open Scope list_scope.
Open Scope Z_scope.

Lemma drawable_pictured b : sides_ok b -> drawable b -> pictured b.
Proof.
  intros S D. destruct (shown_iff b S) as [[_ H] _]. destruct (H D) as [t E]. exists t. split; [exact E|]. exact (tree_shows_board b t S E).
Qed.
Lemma xgid_pictured m s b : XgidModel.decode m s = (b, Ok tt) -> pictured b.
Proof.
  intros E. destruct (proj1 (proj2 (XgidProofs.xgid_decode m s)) b E) as (x & _ & (_ & A2 & A3 & _) & (P & _ & B2 & B3 & B4 & _)).
  apply drawable_pictured; [split; apply P|].
  assert (T : player_no (x_seat (x_turn x))) by (unfold player_no, YOU, HIM; destruct A3 as [->| ->]; cbn; auto).
  assert (O : x_seat (x_owner x) = YOU \/ x_seat (x_owner x) = HIM \/ x_seat (x_owner x) = CENTER) by (unfold YOU, HIM, CENTER; destruct A2 as [->|[->| ->]]; cbn; auto).
  unfold drawable. rewrite B2, B3, B4. split; [exact T|]. split; [right; exact O|]. intros _. split; [exact T|]. right; left; reflexivity.
Qed.
Lemma fibs_pictured m s v b : fibs_line s v -> FibsModel.decode m s = (b, Ok tt) -> pictured b.
Proof.
  intros L E. destruct (FibsProofs.fibs_decode m s v L) as [H1 H2].
  destruct (Z.eq_dec (v 32%nat) (v 41%nat)) as [T|T]; [|destruct (H2 T) as (b' & E' & _); rewrite E in E'; discriminate].
  destruct (H1 T) as (b' & E' & (P & _ & B2 & _ & B4 & B5 & _ & _ & B8 & _)). rewrite E in E'. injection E' as <-.
  apply drawable_pictured; [split; apply P|].
  unfold drawable, player_no. rewrite B2, B4, B5, B8. split; [left; reflexivity|].
  split; [right; unfold line_owner, YOU, HIM, CENTER; destruct (_ && _); [auto|destruct (_ && _); auto]|].
  intros _. destruct (Z.eqb (v 40%nat) 0); [split; [left; reflexivity|right; left; reflexivity]|split; [right; reflexivity|left; reflexivity]].
Qed.
Lemma gnu_sides od fuel x pid mid b : GnuModel.decode od fuel x pid mid = (b, Ok tt) -> sides_ok b.
Proof.
  unfold GnuModel.decode. destruct (GnuModel.decode_match od fuel mid) as [d|e]; [|discriminate]. cbv zeta.
  match goal with |- context[if ?c then _ else _] => destruct c end; [discriminate|].
  destruct (GnuModel.decode_position fuel pid) as [[a o]|e] eqn:E; [|discriminate].
  assert (S : List.length a = 25%nat /\ List.length o = 25%nat).
  { revert E. unfold GnuModel.decode_position. destruct (existsb _ pid); [discriminate|]. destruct (GnuModel.b64_loop fuel pid) as [y|]; [|discriminate]. cbn [bind]. cbv zeta.
    destruct (GnuModel.twoside_decode y) as [u w]. cbn [fst snd]. destruct (negb _ || negb _) eqn:K; [discriminate|]. intros H. injection H as -> ->. unfold zlen in K.
    apply Bool.orb_false_elim in K. lia. }
  destruct (GnuModel.get_int d 6 7 =? 0); [intros H; injection H as <-; exact (conj (proj2 S) (proj1 S))|].
  destruct (GnuModel.get_int d 6 7 =? 1); [intros H; injection H as <-; exact S|discriminate].
Qed.
Lemma decoded_pictures :
  (forall m s b, XgidModel.decode m s = (b, Ok tt) -> pictured b) /\
  (forall m s v b, fibs_line s v -> FibsModel.decode m s = (b, Ok tt) -> pictured b) /\
  (forall od fuel x pid mid b, GnuModel.decode od fuel x pid mid = (b, Ok tt) ->
     (drawable b -> pictured b) /\ (~ drawable b -> board_tree b = Exc AssertionError)).
Proof.
  split; [exact xgid_pictured|]. split; [exact fibs_pictured|]. intros od fuel x pid mid b E. pose proof (gnu_sides _ _ _ _ _ _ E) as S.
  split; [apply drawable_pictured, S|apply (proj2 (shown_iff b S))].
Qed.
(* identifiers of a board with the other player to decide and nothing to decide *)
Definition odd_board : board := set_on_inner_action 1 default_board.
Lemma gnu_undrawable : exists pid mid, forall od x, exists b, GnuModel.decode od 3 x pid mid = (b, Ok tt) /\ board_tree b = Exc AssertionError.
Proof.
  destruct (GnuModel.encode (fun _ _ _ _ => Exc TypeError) odd_board) as [[pid mid]|e] eqn:E; [|vm_compute in E; discriminate].
  exists pid, mid. intros od x. exists odd_board. split; [|vm_compute; reflexivity].
  assert (F : GnuSpec.fits odd_board) by (unfold GnuSpec.fits, player; vm_compute; repeat match goal with |- _ /\ _ => split end; auto; discriminate).
  assert (A : wf_side (fst (position odd_board))) by (split; [reflexivity|repeat constructor; discriminate]).
  assert (B : wf_side (snd (position odd_board))) by (split; [reflexivity|repeat constructor; discriminate]).
  destruct (GnuMatchProofs.full_board (fun _ _ _ _ => Exc TypeError) od odd_board x 3 F A B (le_n 3)) as (p & q & E' & K & _). rewrite E in E'. injection E' as <- <-.
  apply K. intros (H & _). vm_compute in H. discriminate.
Qed.
