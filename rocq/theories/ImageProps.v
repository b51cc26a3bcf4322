(* Properties C65 to C72 and C98: pictures of boards *)
From Verif Require Import Py Dict UtilModel BoardModel BoardSpec ImageModel ImageSpec ImageCss ImageReach ImageMag ImageHeap ImageSheet ImageProofs.
From Coq Require Import Floats.SpecFloat.
Open Scope string_scope.
Open Scope list_scope.
Open Scope Z_scope.

(* the sheet and the tree used in the examples *)
Definition ex_lines : list str :=
  [L "board { width: 341; height: 262; color: red }"; L "chequer { color: green }"; L "home chequer { color: blue }";
   L "home[player=you] chequer[player=you]:data(15) { color: white; width: 20 }"; L "chequer { color: black }"].
Definition ex_sheet : list rule := match load (L "t/default.css") ex_lines with Ok rs => rs | Exc _ => [] end.
Definition ex_chequer (n : string) : elem := Elem (mkhead EChequer [(L "player", mkattr Player None (VStr (L "you")))] []) [inr (L n)].
Definition ex_home (c : elem) : elem := Elem (mkhead EHome [(L "player", mkattr Player None (VStr (L "you")))] []) [inl c].
Definition ex_position (c : elem) : elem := Elem (mkhead EPosition [] []) [inl (ex_home c)].
Definition ex_board (c : elem) : elem := Elem (mkhead EBoard [] []) [inl (ex_position c)].
Definition ex_path (c : elem) : list elem := [ex_board c; ex_position c; ex_home c; c].

(* C65 *)
Theorem C65_selector : forall r path, path <> [] -> pattern r <> [] ->
  (forall b, rule_match r path = Ok b -> (b = true <-> rule_selects r path)) /\
  ((forall s e, In s (pattern r) -> In e path -> exists b, sel_match s e = Ok b) -> exists b, rule_match r path = Ok b).
Proof. exact rule_matching. Qed.
Print Assumptions C65_selector.
(* five rules on the path of a chequer at home *)
Example C65_case : map (fun r => rule_match r (ex_path (ex_chequer "15"))) ex_sheet = map Ok [false; true; true; true; true]
  /\ map (fun r => rule_match r (ex_path (ex_chequer "3"))) ex_sheet = map Ok [false; true; true; false; true].
Proof. split; vm_compute; reflexivity. Qed.

(* C66: two rules that give the board an image *)
Theorem C66_cascade_refuted : exists lines r1 r2, load (L "t.css") lines = Ok [r1; r2] /\
  (exists t, board_tree default_board = Ok t /\ (exists u, style [r1] t = Ok u) /\ (exists u, style [r2] t = Ok u) /\ style [r1; r2] t = Exc AttributeError).
Proof. exact cascade_refuted. Qed.
Print Assumptions C66_cascade_refuted.

(* C66 *)
Theorem C66_cascade_partial : forall path lines rs b t t', load path lines = Ok rs -> sides_ok b -> board_tree b = Ok t -> style rs t = Ok t' -> styled rs [] t t'.
Proof. exact board_cascade. Qed.
Print Assumptions C66_cascade_partial.
(* the last rule wins, whatever is more specific *)
Example C66_case : List.length ex_sheet = 5%nat /\ load (L "t/default.css") ex_lines = Ok ex_sheet /\ sides_ok default_board /\
  match (let! t := board_tree default_board in style ex_sheet t) with
  | Ok t => match elements t with
            | e :: _ => (own e "color", css_lineno (ehead e)) = (Some (VStr (L "red")), [1])
            | [] => False
            end /\ map (fun e => (own e "color", css_lineno (ehead e))) (filter (fun e => of_kind EChequer e && of_player (L "you") e) (elements t)) =
                   repeat (Some (VStr (L "black")), [2; 5]) 4
  | Exc _ => False
  end.
Proof. split; [vm_compute; reflexivity|]. split; [vm_compute; reflexivity|]. split; [split; reflexivity|]. vm_compute. split; reflexivity. Qed.

(* C67: fill on a point *)
Theorem C67_inherit_refuted : exists h up c, kind h = EPoint /\ class_of (kind h) (L "fill") = Some c /\ is_inherit c = true /\
  nearest (h :: up) (L "fill") = None /\ default c = Some (VBool true) /\ get_attr (h :: up) (L "fill") = Exc AttributeError.
Proof. exact inherit_fill_refuted. Qed.
Print Assumptions C67_inherit_refuted.

(* C67 *)
Theorem C67_inherit_partial : forall h up n c, class_of (kind h) n = Some c ->
  (is_inherit c = false ->
     get_attr (h :: up) n = match dget str_eqb (attrs h) n, default c with Some a, _ => Ok (a_value a) | None, Some v => Ok v | None, None => Exc AttributeError end) /\
  (is_inherit c = true -> (n <> L "fill" \/ nearest [h] n <> None) ->
     get_attr (h :: up) n = match nearest (h :: up) n, default c with Some v, _ => Ok v | None, Some v => Ok v | None, None => Exc AttributeError end).
Proof. exact inherit_partial. Qed.
Print Assumptions C67_inherit_partial.
Example C67_case :
  let up := [mkhead EChequer [] []; mkhead EHome [(L "x", mkattr InheritInt None (VInt 7))] []; mkhead EPosition [(L "x", mkattr InheritInt None (VInt 5)); (L "color", mkattr ColorAttr None (VStr (L "red")))] []] in
  get_attr up (L "x") = Ok (VInt 7) /\ get_attr up (L "color") = Exc AttributeError /\ get_attr up (L "flip") = Ok (VBool false) /\ get_attr up (L "font") = Exc AttributeError.
Proof. repeat split; vm_compute; reflexivity. Qed.

(* C68 *)
Theorem C68_visit : forall St (f : list elem -> St -> res St) (cb : list elem -> St -> res (head * St)) t s,
  visit_tree (watching f) t s = (let! u := run_all f (paths [] t) s in Ok (t, u)) /\
  forall anc p u, visit cb (anc ++ [t]) t s = Ok (p, u) -> exists t', p = anc ++ [t'] /\ same_shape t t'.
Proof. exact visit_complete. Qed.
Print Assumptions C68_visit.
Example C68_case : map (fun p => map (fun e => kind (ehead e)) p) (paths [] (ex_board (ex_chequer "2"))) =
  [[EBoard]; [EBoard; EPosition]; [EBoard; EPosition; EHome]; [EBoard; EPosition; EHome; EChequer]].
Proof. reflexivity. Qed.

(* C69: a resignation with dice on the table after a double that was taken *)
Theorem C69_shown_refuted : exists l t, let b := acts l ongoing in
  board_tree b = Ok t /\ doubled b = true /\ cube_owner b = CENTER /\ resign_offer b = 1 /\
  written_on ECube t = [] /\ written_on EResign t = [].
Proof. exact tree_hides_cube. Qed.
Print Assumptions C69_shown_refuted.

(* C69: a resignation after a double that was taken is shown as a double *)
Theorem C69_resign_refuted : exists l t, let b := acts l ongoing in
  board_tree b = Ok t /\ is_to_accept_resign b HIM = true /\ resign_offer b = 1 /\
  written_on EResign t = [] /\ written_on EAction t = [L "you doubled. him to take or drop."].
Proof. exact resign_as_double. Qed.
Print Assumptions C69_resign_refuted.

(* C69 *)
Theorem C69_shown_partial : forall b t, sides_ok b -> board_tree b = Ok t ->
  shows_chequers b t /\ shows_cube b t /\ shows_dice b t /\ shows_resign b t /\ shows_match b t.
Proof. exact tree_shows_board. Qed.
Print Assumptions C69_shown_partial.
Example C69_case : sides_ok ongoing /\ match board_tree (acts [ADouble YOU] ongoing) with
  | Ok t => written_on ECube t = [L "1"] /\ all_chequers (L "you") t = [L "5"; L "3"; L "5"; L "2"] /\ written_on EAction t = [L "you doubled. him to take or drop."]
  | Exc _ => False
  end.
Proof. split; [split; reflexivity|]. vm_compute. repeat split. Qed.

(* C70 *)
Theorem C70_drawable : forall b, sides_ok b ->
  ((exists t, board_tree b = Ok t) <-> drawable b) /\ (~ drawable b -> board_tree b = Exc AssertionError).
Proof. exact shown_iff. Qed.
Print Assumptions C70_drawable.
Example C70_cases : drawable ongoing /\ ~ drawable (set_on_inner_action HIM ongoing).
Proof.
  split; [split; [left; reflexivity|split; [right; right; right; reflexivity|intros _; split; [left; reflexivity|right; left; reflexivity]]]|].
  intros (_ & _ & H). destruct (H eq_refl) as (_ & [E|[E|E]]); [discriminate E|discriminate E|]. cbn in E. destruct E as (E & _). exact (E eq_refl).
Qed.

(* C70 *)
Theorem C70_reachable : forall l b, at_rest b -> exists t, board_tree (acts l b) = Ok t.
Proof. exact reach_shown. Qed.
Print Assumptions C70_reachable.
Example C70_start : at_rest default_board /\ at_rest ongoing.
Proof. exact start_at_rest. Qed.

(* C71: 97 by 97 for a board of 341 by 262 *)
Theorem C71_fits_refuted : exists e bound, get_int [ehead e] "width" = Ok 341 /\ get_int [ehead e] "height" = Ok 262 /\ bound = (97, 97) /\ set_mag e bound = Exc AssertionError.
Proof. exact set_mag_refuted. Qed.
Print Assumptions C71_fits_refuted.

(* C71 *)
Theorem C71_fits_partial : forall e bound e', set_mag e bound = Ok e' ->
  children e' = children e /\ kind (ehead e') = kind (ehead e) /\ css_lineno (ehead e') = css_lineno (ehead e) /\
  (forall n, n <> L "mag" -> dget str_eqb (attrs (ehead e')) n = dget str_eqb (attrs (ehead e)) n) /\
  exists m w h fx fw fy fh,
    get_attr [ehead e'] (L "mag") = Ok (VFlt m) /\ get_int [ehead e'] "width" = Ok w /\ get_int [ehead e'] "height" = Ok h /\
    to_float (fst bound) = Ok fx /\ to_float w = Ok fw /\ to_float (snd bound) = Ok fy /\ to_float h = Ok fh /\
    SFltb (S754_zero false) m = true /\ (m = fdiv fx fw \/ m = fdiv fy fh) /\ SFleb m (fdiv fx fw) = true /\ SFleb m (fdiv fy fh) = true /\
    (0 < w -> forall x, 0 <= x <= w -> exists v, apply_mag [ehead e'] x = Ok v /\ 0 <= v <= fst bound) /\
    (0 < h -> forall x, 0 <= x <= h -> exists v, apply_mag [ehead e'] x = Ok v /\ 0 <= v <= snd bound).
Proof. exact set_mag_partial. Qed.
Print Assumptions C71_fits_partial.
Example C71_case : exists e, set_mag (plate 341 262) (400, 400) = Ok e /\ apply_mag [ehead e] 341 = Ok 400 /\ apply_mag [ehead e] 262 = Ok 307 /\ apply_mag [ehead e] 100 = Ok 117.
Proof. eexists. vm_compute. repeat split. Qed.

(* C72 *)
Theorem C72_append : forall h p c P C, nth_error h p = Some P -> nth_error h c = Some C ->
  (may_hold (c_kind P) (c_kind C) -> p <> c /\ exists h', step h (AppendElem p c) = (h', Ok tt) /\ same_but p c h h' /\
     nth_error h' p = Some (mkcell (c_kind P) (c_children P ++ [inl c]) (c_parent P)) /\
     nth_error h' c = Some (mkcell (c_kind C) (c_children C) (Some p))) /\
  (~ may_hold (c_kind P) (c_kind C) -> step h (AppendElem p c) = (h, Exc TypeError)).
Proof. exact step_append. Qed.
Print Assumptions C72_append.

(* C72 *)
Theorem C72_append_text : forall h p P s, nth_error h p = Some P ->
  (may_hold_text (c_kind P) -> exists h', step h (AppendText p s) = (h', Ok tt) /\ same_but p p h h' /\
     nth_error h' p = Some (mkcell (c_kind P) (c_children P ++ [inr s]) (c_parent P))) /\
  (~ may_hold_text (c_kind P) -> step h (AppendText p s) = (h, Exc TypeError)).
Proof. exact step_text. Qed.
Print Assumptions C72_append_text.

(* C72 *)
Theorem C72_valid : forall l, let h := run_ops [] l in valid h /\ parents_hold h /\ (forall i, ~ within h i i).
Proof. exact run_valid. Qed.
Print Assumptions C72_valid.
Example C72_case : let h := run_ops [] [New EBoard; New EPosition; New EPoint; New EChequer; AppendElem 1 2; AppendElem 3 2; AppendElem 2 3; AppendText 3 (L "2"); AppendElem 0 1; AppendText 0 (L "x")] in
  map c_children h = [[inl 1%nat]; [inl 2%nat]; [inl 3%nat]; [inr (L "2")]] /\ map c_parent h = [None; Some 0%nat; Some 1%nat; Some 2%nat].
Proof. split; reflexivity. Qed.

(* C98 *)
Theorem C98_one_place_refuted : exists l, let h := run_ops [] l in exists p q c P Q C, p <> q /\ nth_error h p = Some P /\ nth_error h q = Some Q /\ nth_error h c = Some C /\
  In (inl c) (c_children P) /\ In (inl c) (c_children Q) /\ c_parent C = Some q.
Proof. exact two_places. Qed.
Print Assumptions C98_one_place_refuted.
