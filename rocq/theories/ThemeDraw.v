(* When drawing an element succeeds, whatever the magnification, and which files it loads. *)
From Verif Require Import Py PyFacts Dict DictFacts UtilModel BoardModel ImageModel ImageSpec ImageCss ImageTree ThemeModel ThemePath.
Open Scope string_scope.
Open Scope list_scope.
Open Scope Z_scope.

Definition fits (w z : Z) : bool := (- w <=? z) && (z <=? w).
(* the attribute is a number that can be scaled *)
Definition need (w : Z) (up : list head) (n : string) : bool := match get_int up n with Ok z => fits w z | Exc _ => false end.
Definition seen (up : list head) (n : string) : option value := match get_attr up (L n) with Ok v => Some v | Exc _ => None end.
Definition needs (w : Z) (up : list head) (l : list string) : bool := forallb (need w up) l.
Definition when {X} (b : bool) (x : option X) : option X := if b then x else None.
Definition an_image (i : option value) (other : option (list value)) : option (list value) :=
  match i with Some v => if truthy v then Some [v] else other | None => other end.
Definition a_font (f : option value) (other : option (list value)) : option (list value) :=
  match f with Some v => if truthy v then Some [v] else other | None => other end.
Definition place : list string := ["width"; "height"; "x"; "y"].
Definition sketch_fg (w : Z) (up : list head) (k : ekind) (count : Z) : option (list value) :=
  let image := seen up "image" in
  let font := seen up "font" in
  when (needs w up place && has_attr up "flip")
  match k with
  | EAction | ELength | EScore | ECrawford => an_image image (if otruthy font then when (has_attr up "color") (a_font font None) else Some [])
  | EField => match image, seen up "text" with
              | Some v, t => if truthy v then Some [v] else if otruthy t then a_font font (Some []) else Some []
              | None, t => if otruthy t then a_font font (Some []) else Some []
              end
  | EDie => match seen up "diestyle" with
            | None => None
            | Some style =>
                an_image image
                  (if value_eqb style (VStr (L "numeric")) && otruthy font then a_font font None
                   else if value_eqb style (VStr (L "dot")) then when (need w up "eyesize") (Some []) else None)
            end
  | ECube => an_image image (a_font font None)
  | EResign => when (needs w up ["x_offset"; "y_offset"]) (an_image image (a_font font None))
  | EChequer =>
      when (needs w up ["x_offset"; "y_offset"; "x_offset2"; "y_offset2"] && needs w (tl up) place)
      match get_int up "max_count" with
      | Exc _ => None
      | Ok m =>
          let number := if negb (otruthy (seen up "hide_count")) && (count >? m) then match font with Some f => [f] | None => [] end else [] in
          match an_image image (Some []) with Some l => Some (l ++ number) | None => None end
      end
  | EPoint => an_image image (if match seen up "color" with Some v => truthy v | None => true end then Some [] else None)
  | _ => match image with Some v => Some [v] | None => Some [] end
  end.
Definition sketch (w : Z) (up : list head) (k : ekind) (count : Z) : option (list value) :=
  when (if has_attr up "background" then needs w up place else true)
    (if has_attr up "image" || has_attr up "color" then sketch_fg w up k count else Some []).

(* the heads of a path before and after the magnification was set *)
Definition magged (w : Z) (up up' : list head) : Prop :=
  (forall n : str, n <> L "mag" -> get_attr up' n = get_attr up n) /\ (forall n : str, n <> L "mag" -> get_attr (tl up') n = get_attr (tl up) n) /\
  forall x : Z, fits w x = true -> exists v, apply_mag up' x = Ok v.
Lemma get_attr_exc up n e : get_attr up n = Exc e -> e = AttributeError.
Proof.
  induction up as [|h up IH]; cbn [get_attr]; [congruence|]. destruct (class_of (kind h) n) as [c|]; [|congruence].
  destruct (dget str_eqb (attrs h) n); [discriminate|]. destruct (is_inherit c && _); [exact IH|]. destruct (default c); congruence.
Qed.
Lemma opt_attr_seen up n : opt_attr up n = Ok (seen up n).
Proof. unfold opt_attr, seen. destruct (get_attr up (L n)) eqn:E; [reflexivity|]. rewrite (get_attr_exc _ _ _ E). reflexivity. Qed.
Lemma attr_or_seen up n d : attr_or up n d = Ok match seen up n with Some v => v | None => d end.
Proof. unfold attr_or. rewrite opt_attr_seen. reflexivity. Qed.
Lemma has_seen up n : has_attr up n = match seen up n with Some _ => true | None => false end.
Proof. unfold has_attr, seen. destruct (get_attr up (L n)); reflexivity. Qed.
Lemma get_seen up n v : seen up n = Some v -> get_attr up (L n) = Ok v.
Proof. unfold seen. destruct (get_attr up (L n)); congruence. Qed.
Section Magged.
Variables (w : Z) (up up' : list head).
Hypothesis M : magged w up up'.
Lemma m_seen n : L n <> L "mag" -> seen up' n = seen up n.
Proof. intros N. unfold seen. rewrite (proj1 M) by exact N. reflexivity. Qed.
Lemma m_has n : L n <> L "mag" -> has_attr up' n = has_attr up n.
Proof. intros N. rewrite !has_seen, m_seen by exact N. reflexivity. Qed.
Lemma m_int n : L n <> L "mag" -> need w up n = true -> exists z v, get_int up' n = Ok z /\ apply_mag up' z = Ok v.
Proof.
  intros N H. unfold need in H. destruct (get_int up n) as [z|] eqn:E; [|discriminate]. destruct (proj2 (proj2 M) z H) as (v & V). exists z, v. split; [|exact V].
  unfold get_int in *. rewrite (proj1 M) by exact N. exact E.
Qed.
Lemma m_up n : L n <> L "mag" -> need w (tl up) n = true -> exists z v, get_int (tl up') n = Ok z /\ apply_mag up' z = Ok v.
Proof.
  intros N H. unfold need in H. destruct (get_int (tl up) n) as [z|] eqn:E; [|discriminate]. destruct (proj2 (proj2 M) z H) as (v & V). exists z, v. split; [|exact V].
  unfold get_int in *. rewrite (proj1 (proj2 M)) by exact N. exact E.
Qed.
Lemma m_mag2 a b : L a <> L "mag" -> L b <> L "mag" -> need w up a = true -> need w up b = true -> exists p, mag2 up' a b = Ok p.
Proof.
  intros A B H1 H2. destruct (m_int a A H1) as (z1 & v1 & G1 & V1). destruct (m_int b B H2) as (z2 & v2 & G2 & V2). exists (v1, v2).
  unfold mag2. rewrite G1. cbn [bind]. rewrite G2. cbn [bind]. rewrite V1. cbn [bind]. rewrite V2. reflexivity.
Qed.
End Magged.

(* what must be written on an element *)
Definition written (k : ekind) (e : elem) (count : Z) : Prop :=
  match k with
  | EAction | ELength | EScore | ECrawford => exists s, child0 e = Ok s
  | EDie => exists d, 1 <= d <= 6 /\ child0 e = Ok (py_str_int d)
  | ECube => exists n, 0 <= n /\ child0 e = Ok (py_str_int n)
  | EResign => exists n, 0 <= n <= 3 /\ child0 e = Ok (py_str_int n)
  | EChequer => child0 e = Ok (py_str_int count)
  | _ => True
  end.
Section Sound.
Variables (w : Z) (up up' : list head).
Hypothesis M : magged w up up'.
Definition drawn (r : res (list cmd)) (fs : list value) : Prop := exists cs, r = Ok cs /\ incl (flat_map loads cs) fs.
Lemma drawn_one c fs : incl (loads c) fs -> drawn (Ok [c]) fs.
Proof. intros H. exists [c]. split; [reflexivity|]. cbn. rewrite app_nil_r. exact H. Qed.
Lemma drawn_none fs : drawn (Ok []) fs.
Proof. exists []. split; [reflexivity|]. intros x []. Qed.
Lemma paste_ok v size position : has_attr up "flip" = true -> drawn (paste up' (Some v) size position) [v].
Proof.
  intros F. unfold paste. rewrite <- (m_has w up up' M) in F by discriminate. rewrite has_seen in F. destruct (seen up' "flip") as [f|] eqn:S; [|discriminate].
  rewrite (get_seen _ _ _ S). cbn [bind]. apply drawn_one. intros x I. exact I.
Qed.
Lemma placed : needs w up place = true -> exists p s, mag2 up' "x" "y" = Ok p /\ mag2 up' "width" "height" = Ok s.
Proof.
  unfold needs, place. cbn [forallb]. rewrite !andb_true_iff. intros (A & B & C & D & _).
  destruct (m_mag2 w up up' M "width" "height" ltac:(discriminate) ltac:(discriminate) A B) as (s & S). destruct (m_mag2 w up up' M "x" "y" ltac:(discriminate) ltac:(discriminate) C D) as (p & P). eauto.
Qed.
Lemma otruthy_some o : otruthy o = true -> exists v, o = Some v /\ truthy v = true.
Proof. destruct o as [v|]; [|discriminate]. cbn. eauto. Qed.
Lemma text_elem_ok e fs : needs w up place = true -> has_attr up "flip" = true -> (exists s, child0 e = Ok s) ->
  an_image (seen up "image") (if otruthy (seen up "font") then when (has_attr up "color") (a_font (seen up "font") None) else Some []) = Some fs ->
  drawn (draw_text_elem up' e) fs /\ drawn (draw_crawford up' e) fs.
Proof.
  intros P F (s & C) H. destruct (placed P) as (po & si & E1 & E2). unfold draw_text_elem, draw_crawford. rewrite E2. cbn [bind]. rewrite E1. cbn [bind]. rewrite !opt_attr_seen. cbn [bind].
  rewrite !(m_seen w up up' M) by discriminate. unfold an_image in H. destruct (seen up "image") as [v|]; cbn [otruthy].
  - destruct (truthy v). { injection H as <-. split; apply paste_ok; exact F. }
    destruct (otruthy (seen up "font")) eqn:OF; [|split; apply drawn_none].
    unfold when in H. destruct (has_attr up "color") eqn:HC; [|discriminate]. apply otruthy_some in OF as (f & Sf & Tf). rewrite Sf in H. cbn in H. rewrite Tf in H. injection H as <-.
    rewrite C. cbn [bind]. rewrite (get_seen up' "font" f) by (rewrite (m_seen w up up' M) by discriminate; exact Sf). cbn [bind].
    rewrite has_seen in HC. destruct (seen up "color") as [c|] eqn:Sc; [|discriminate]. rewrite (get_seen up' "color" c) by (rewrite (m_seen w up up' M) by discriminate; exact Sc). cbn [bind].
    split; [|destruct (str_eqb s (L "True")); [|apply drawn_none]]; apply drawn_one; intros x I; exact I.
  - destruct (otruthy (seen up "font")) eqn:OF; [|split; apply drawn_none].
    unfold when in H. destruct (has_attr up "color") eqn:HC; [|discriminate]. apply otruthy_some in OF as (f & Sf & Tf). rewrite Sf in H. cbn in H. rewrite Tf in H. injection H as <-.
    rewrite C. cbn [bind]. rewrite (get_seen up' "font" f) by (rewrite (m_seen w up up' M) by discriminate; exact Sf). cbn [bind].
    rewrite has_seen in HC. destruct (seen up "color") as [c|] eqn:Sc; [|discriminate]. rewrite (get_seen up' "color" c) by (rewrite (m_seen w up up' M) by discriminate; exact Sc). cbn [bind].
    split; [|destruct (str_eqb s (L "True")); [|apply drawn_none]]; apply drawn_one; intros x I; exact I.
Qed.
Lemma field_ok fs : needs w up place = true ->
  match seen up "image", seen up "text" with
  | Some v, t => if truthy v then Some [v] else if otruthy t then a_font (seen up "font") (Some []) else Some []
  | None, t => if otruthy t then a_font (seen up "font") (Some []) else Some []
  end = Some fs -> drawn (draw_field up') fs.
Proof.
  intros P H. destruct (placed P) as (po & si & E1 & E2). unfold draw_field. rewrite E2. cbn [bind]. rewrite E1. cbn [bind]. repeat progress (rewrite ?opt_attr_seen, ?attr_or_seen; cbn [bind]).
  rewrite !(m_seen w up up' M) by discriminate.
  assert (X : forall fs, (if otruthy (seen up "text") then a_font (seen up "font") (Some []) else Some []) = Some fs ->
    drawn (if truthy match seen up "text" with Some v => v | None => VStr [] end && otruthy (seen up "font")
           then let! f := get_attr up' (L "font") in Ok [DrawText po si (match (match seen up "text" with Some v => v | None => VStr [] end) with VStr s => s | _ => [] end) f (match seen up "color" with Some v => v | None => VStr (L "black") end)]
           else Ok []) fs).
  { intros gs G. destruct (seen up "text") as [t|]; cbn [otruthy] in G; [|cbn; apply drawn_none].
    destruct (truthy t); [|apply drawn_none]. cbn [andb]. destruct (otruthy (seen up "font")) eqn:OF; [|apply drawn_none].
    apply otruthy_some in OF as (f & Sf & Tf). rewrite Sf in G. cbn in G. rewrite Tf in G. injection G as <-.
    rewrite (get_seen up' "font" f) by (rewrite (m_seen w up up' M) by discriminate; exact Sf). cbn [bind]. apply drawn_one. intros x I. exact I. }
  destruct (seen up "image") as [v|]; cbn [otruthy]; [|apply X, H]. destruct (truthy v); [|apply X, H]. injection H as <-. apply drawn_one. intros x I. exact I.
Qed.
Lemma image_or r v o fs (Q : has_attr up "flip" = true) size position : an_image (Some v) o = Some fs -> (forall fs, o = Some fs -> drawn r fs) ->
  drawn (if truthy v then paste up' (Some v) size position else r) fs.
Proof. cbn. intros H R. destruct (truthy v); [injection H as <-; apply paste_ok, Q|apply R, H]. Qed.
Lemma font_text f o fs (X : value -> list cmd) r : seen up "font" = f -> a_font f o = Some fs -> (forall v, incl (flat_map loads (X v)) [v]) -> (forall fs, o = Some fs -> drawn r fs) ->
  drawn (if otruthy f then let! v := get_attr up' (L "font") in Ok (X v) else r) fs.
Proof.
  intros Sf H I R. destruct f as [f|]; cbn [otruthy a_font] in *; [|apply R, H]. destruct (truthy f); [|apply R, H]. injection H as <-.
  rewrite (get_seen up' "font" f) by (rewrite (m_seen w up up' M) by discriminate; exact Sf). cbn [bind]. eexists. split; [reflexivity|apply I].
Qed.
Lemma die_ok e fs d : needs w up place = true -> has_attr up "flip" = true -> 1 <= d <= 6 -> child0 e = Ok (py_str_int d) ->
  match seen up "diestyle" with
  | None => None
  | Some style => an_image (seen up "image") (if value_eqb style (VStr (L "numeric")) && otruthy (seen up "font") then a_font (seen up "font") None
                   else if value_eqb style (VStr (L "dot")) then when (need w up "eyesize") (Some []) else None)
  end = Some fs -> drawn (draw_die up' e) fs.
Proof.
  intros P F D C H. destruct (placed P) as (po & si & E1 & E2). unfold draw_die. rewrite E2. cbn [bind]. rewrite E1. cbn [bind]. repeat progress (rewrite ?opt_attr_seen, ?attr_or_seen; cbn [bind]).
  rewrite !(m_seen w up up' M) by discriminate.
  destruct (seen up "diestyle") as [st|] eqn:Ss; [|discriminate]. rewrite (get_seen up' "diestyle" st) by (rewrite (m_seen w up up' M) by discriminate; exact Ss). cbn [bind].
  set (color := match seen up "color" with Some v => v | None => VStr (L "black") end).
  match goal with |- drawn (if otruthy _ then _ else ?r) _ => set (R := r) end.
  assert (X : forall fs, (if value_eqb st (VStr (L "numeric")) && otruthy (seen up "font") then a_font (seen up "font") None
                   else if value_eqb st (VStr (L "dot")) then when (need w up "eyesize") (Some []) else None) = Some fs -> drawn R fs).
  { intros gs G. unfold R. destruct (value_eqb st (VStr (L "numeric")) && otruthy (seen up "font")) eqn:Q.
    - apply andb_prop in Q as (_ & OF). apply otruthy_some in OF as (f & Sf & Tf). rewrite Sf in G. cbn in G. rewrite Tf in G. injection G as <-.
      rewrite C. cbn [bind]. rewrite (get_seen up' "font" f) by (rewrite (m_seen w up up' M) by discriminate; exact Sf). cbn [bind]. apply drawn_one. intros x I. exact I.
    - destruct (value_eqb st (VStr (L "dot"))); [|discriminate]. unfold when in G. destruct (need w up "eyesize") eqn:N; [|discriminate].
      destruct (m_mag2 w up up' M "eyesize" "eyesize" ltac:(discriminate) ltac:(discriminate) N N) as (ds & DS). rewrite DS. cbn [bind]. rewrite C. cbn [bind].
      assert (DD : d = 1 \/ d = 2 \/ d = 3 \/ d = 4 \/ d = 5 \/ d = 6) by lia. destruct DD as [->|[->|[->|[->|[->| ->]]]]]; 
      repeat match goal with |- context [str_eqb (py_str_int ?a) (L ?s)] => let v := eval vm_compute in (str_eqb (py_str_int a) (L s)) in change (str_eqb (py_str_int a) (L s)) with v end;
      cbv iota; (eexists; split; [reflexivity|cbn [map flat_map loads app]; intros x []]). }
  destruct (seen up "image") as [v|]; cbn [otruthy]; [|apply X, H]. eapply image_or; [exact F|exact H|exact X].
Qed.
Lemma cube_ok e fs n : needs w up place = true -> has_attr up "flip" = true -> 0 <= n -> child0 e = Ok (py_str_int n) ->
  an_image (seen up "image") (a_font (seen up "font") None) = Some fs -> drawn (draw_cube up' e) fs.
Proof.
  intros P F D C H. destruct (placed P) as (po & si & E1 & E2). unfold draw_cube. rewrite E2. cbn [bind]. rewrite E1. cbn [bind]. repeat progress (rewrite ?opt_attr_seen, ?attr_or_seen; cbn [bind]).
  rewrite !(m_seen w up up' M) by discriminate. set (color := match seen up "color" with Some v => v | None => VStr (L "white") end). clearbody color.
  match goal with |- drawn (if otruthy _ then _ else ?r) _ => set (R := r) end.
  assert (X : forall fs, a_font (seen up "font") None = Some fs -> drawn R fs).
  { intros gs G. unfold R. destruct (seen up "font") as [f|] eqn:Sf; [|discriminate]. cbn [otruthy a_font] in *. destruct (truthy f); [|discriminate]. injection G as <-.
    rewrite C. cbn [bind]. rewrite py_int_str. cbn [bind]. unfold pypow2. replace (n <? 0) with false by lia. cbn [bind].
    rewrite (get_seen up' "font" f) by (rewrite (m_seen w up up' M) by discriminate; exact Sf). cbn [bind].
    destruct (has_attr up' "initialCube") eqn:HI; rewrite ?andb_false_r, ?andb_true_r.
    - rewrite has_seen in HI. destruct (seen up' "initialCube") as [i|] eqn:Si; [|discriminate]. rewrite (get_seen up' "initialCube" i Si). cbn [bind].
      destruct (2 ^ n =? 1); apply drawn_one; intros x I; exact I.
    - apply drawn_one; intros x I; exact I. }
  destruct (seen up "image") as [v|]; cbn [otruthy]; [|apply X, H]. eapply image_or; [exact F|exact H|exact X].
Qed.
Lemma row_loads n v size position off : incl (flat_map loads (paste_row n v size position off)) [v].
Proof. revert position. induction n as [|n IH]; intros position; [intros x []|]. cbn [paste_row flat_map loads]. apply incl_app; [intros x I; exact I|apply IH]. Qed.
Lemma resign_ok e fs n : needs w up place = true -> 0 <= n <= 3 -> child0 e = Ok (py_str_int n) ->
  when (needs w up ["x_offset"; "y_offset"]) (an_image (seen up "image") (a_font (seen up "font") None)) = Some fs -> drawn (draw_resign up' e) fs.
Proof.
  intros P D C H. destruct (placed P) as (po & si & E1 & E2). unfold draw_resign. rewrite E2. cbn [bind]. rewrite E1. cbn [bind]. repeat progress (rewrite ?opt_attr_seen, ?attr_or_seen; cbn [bind]).
  rewrite !(m_seen w up up' M) by discriminate. set (color := match seen up "color" with Some v => v | None => VStr (L "white") end). clearbody color.
  unfold when in H. destruct (needs w up ["x_offset"; "y_offset"]) eqn:N; [|discriminate]. unfold needs in N. cbn [forallb] in N. apply andb_prop in N as (N1 & N). apply andb_prop in N as (N2 & _).
  destruct (m_mag2 w up up' M "x_offset" "y_offset" ltac:(discriminate) ltac:(discriminate) N1 N2) as (off & OFF). rewrite OFF. cbn [bind].
  rewrite C. cbn [bind]. rewrite py_int_str. cbn [bind].
  assert (X : forall fs, a_font (seen up "font") None = Some fs -> drawn (if otruthy (seen up "font") then
     let! t := pyget RESIGN_STRINGS n in let! f := get_attr up' (L "font") in Ok [DrawText po si t f color] else Exc AssertionError) fs).
  { intros gs G. destruct (seen up "font") as [f|] eqn:Sf; [|discriminate]. cbn [otruthy a_font] in *. destruct (truthy f); [|discriminate]. injection G as <-.
    rewrite (get_seen up' "font" f) by (rewrite (m_seen w up up' M) by discriminate; exact Sf).
    assert (DD : n = 0 \/ n = 1 \/ n = 2 \/ n = 3) by lia. destruct DD as [->|[->|[->| ->]]]; cbn [pyget RESIGN_STRINGS bind]; apply drawn_one; intros x I; exact I. }
  destruct (seen up "image") as [v|]; cbn [otruthy an_image] in *; [|apply X, H]. destruct (truthy v); [|apply X, H]. injection H as <-. eexists. split; [reflexivity|]. apply row_loads.
Qed.
Lemma loop_ok n color fill size position off fs : has_attr up "flip" = true -> needs w up ["x_offset2"; "y_offset2"] = true -> needs w (tl up) place = true ->
  an_image (seen up "image") (Some []) = Some fs ->
  exists cs p, chequer_loop n up' (seen up "image") color fill size position off = Ok (cs, p) /\ incl (flat_map loads cs) fs.
Proof.
  intros F N T H. revert position. unfold needs, place in *. cbn [forallb] in N, T. rewrite !andb_true_iff in N. rewrite !andb_true_iff in T. destruct N as (N1 & N2 & _). destruct T as (T1 & T2 & T3 & T4 & _).
  destruct (m_int w up up' M "x_offset2" ltac:(discriminate) N1) as (x2 & x2' & A1 & A2). destruct (m_int w up up' M "y_offset2" ltac:(discriminate) N2) as (y2 & y2' & B1 & B2).
  destruct (m_up w up up' M "width" ltac:(discriminate) T1) as (pw & pw' & C1 & C2). destruct (m_up w up up' M "height" ltac:(discriminate) T2) as (ph & ph' & D1 & D2).
  destruct (m_up w up up' M "x" ltac:(discriminate) T3) as (px & px' & G1 & G2). destruct (m_up w up up' M "y" ltac:(discriminate) T4) as (py & py' & K1 & K2).
  induction n as [|n IH]; intros position. { exists [], position. split; [reflexivity|intros x []]. }
  cbn [chequer_loop].
  assert (X : drawn (if otruthy (seen up "image") then paste up' (seen up "image") size position else Ok [DrawEllipse position size (if truthy fill then color else fill)]) fs).
  { destruct (seen up "image") as [v|]; cbn [otruthy an_image] in *; [destruct (truthy v)|].
    - injection H as <-. apply paste_ok, F.
    - apply drawn_one. intros x [].
    - apply drawn_one. intros x []. }
  destruct X as (c & -> & Ic). cbn [bind]. rewrite G1. cbn [bind]. rewrite G2. cbn [bind]. rewrite C1. cbn [bind]. rewrite C2. cbn [bind]. rewrite K1. cbn [bind]. rewrite K2. cbn [bind].
  rewrite D1. cbn [bind]. rewrite D2. cbn [bind]. rewrite A1. cbn [bind]. rewrite A2. cbn [bind]. rewrite B1. cbn [bind]. rewrite B2. cbn [bind].
  cbn [fst snd]. destruct (fst position + fst off + fst size >? px' + pw'); cbn [bind].
  - destruct (IH (fst position + fst off + x2', snd position + snd off + y2')) as (cs & p & -> & I). cbn [bind fst snd]. exists (c ++ cs), p. split; [reflexivity|]. rewrite flat_map_app. apply incl_app; assumption.
  - destruct (snd position + snd off + snd size >? py' + ph'); cbn [bind].
    + destruct (IH (fst position + fst off + x2', snd position + snd off + y2')) as (cs & p & -> & I). cbn [bind fst snd]. exists (c ++ cs), p. split; [reflexivity|]. rewrite flat_map_app. apply incl_app; assumption.
    + destruct (IH (fst position + fst off, snd position + snd off)) as (cs & p & -> & I). cbn [bind fst snd]. exists (c ++ cs), p. split; [reflexivity|]. rewrite flat_map_app. apply incl_app; assumption.
Qed.
Lemma chequer_ok e fs count : needs w up place = true -> has_attr up "flip" = true -> child0 e = Ok (py_str_int count) ->
  when (needs w up ["x_offset"; "y_offset"; "x_offset2"; "y_offset2"] && needs w (tl up) place)
      match get_int up "max_count" with
      | Exc _ => None
      | Ok m =>
          let number := if negb (otruthy (seen up "hide_count")) && (count >? m) then match seen up "font" with Some f => [f] | None => [] end else [] in
          match an_image (seen up "image") (Some []) with Some l => Some (l ++ number) | None => None end
      end = Some fs -> drawn (draw_chequer up' e) fs.
Proof.
  intros P F C H. destruct (placed P) as (po & si & E1 & _).
  unfold when in H. destruct (needs w up ["x_offset"; "y_offset"; "x_offset2"; "y_offset2"]) eqn:N; cbn [andb] in H; [|discriminate]. destruct (needs w (tl up) place) eqn:T; cbn [andb] in H; [|discriminate].
  destruct (get_int up "max_count") as [m|] eqn:Em; [|discriminate]. destruct (an_image (seen up "image") (Some [])) as [l|] eqn:Ei; [|discriminate]. cbv zeta in H. injection H as <-.
  assert (Em' : get_int up' "max_count" = Ok m). { unfold get_int in *. rewrite (proj1 M) by discriminate. exact Em. }
  unfold needs, place in P. cbn [forallb] in P. rewrite !andb_true_iff in P. destruct P as (P1 & P2 & _).
  assert (N' := N). unfold needs in N. cbn [forallb] in N. rewrite !andb_true_iff in N. destruct N as (N1 & N2 & N3 & N4 & _).
  destruct (m_int w up up' M "width" ltac:(discriminate) P1) as (x1 & x1' & A1 & A2). destruct (m_int w up up' M "height" ltac:(discriminate) P2) as (y1 & y1' & B1 & B2).
  destruct (m_int w up up' M "x_offset" ltac:(discriminate) N1) as (x2 & x2' & C1 & C2). destruct (m_int w up up' M "y_offset" ltac:(discriminate) N2) as (y2 & y2' & D1 & D2).
  unfold draw_chequer. rewrite C. cbn [bind]. rewrite py_int_str. cbn [bind]. rewrite B1. cbn [bind]. rewrite B2. cbn [bind]. rewrite A1. cbn [bind]. rewrite A2. cbn [bind]. rewrite E1. cbn [bind].
  rewrite C1. cbn [bind]. rewrite C2. cbn [bind]. rewrite D1. cbn [bind]. rewrite D2. cbn [bind].
  repeat progress (rewrite ?opt_attr_seen, ?attr_or_seen; cbn [bind]). rewrite !(m_seen w up up' M) by discriminate. rewrite Em'. cbn [bind].
  set (color := match seen up "color" with Some v => v | None => VStr (L "white") end). clearbody color.
  edestruct (loop_ok (Z.to_nat (Z.min count m)) color) as (cs & p & -> & I); [exact F| |exact T|exact Ei|].
  { unfold needs. cbn [forallb]. rewrite N3, N4. reflexivity. }
  cbn [bind fst snd]. rewrite <- andb_assoc. destruct (negb (otruthy (seen up "hide_count")) && (count >? m)).
  - destruct (seen up "font") as [f|] eqn:Sf; cbn [andb].
    + rewrite (get_seen up' "font" f) by (rewrite (m_seen w up up' M) by discriminate; exact Sf). cbn [bind]. eexists. split; [reflexivity|]. rewrite flat_map_app. cbn [flat_map loads]. rewrite app_nil_r. 
      apply incl_app; [apply incl_appl, I|apply incl_appr, incl_refl].
    + eexists. split; [reflexivity|]. apply incl_appl, I.
  - rewrite andb_false_r. eexists. split; [reflexivity|]. apply incl_appl, I.
Qed.
Lemma point_ok fs : needs w up place = true -> has_attr up "flip" = true ->
  an_image (seen up "image") (if match seen up "color" with Some v => truthy v | None => true end then Some [] else None) = Some fs -> drawn (draw_point up') fs.
Proof.
  intros P F H. destruct (placed P) as ([x y] & [wi he] & E1 & E2). unfold draw_point. rewrite E1. cbn [bind]. rewrite E2. cbn [bind]. repeat progress (rewrite ?opt_attr_seen, ?attr_or_seen; cbn [bind]).
  rewrite !(m_seen w up up' M) by discriminate.
  match goal with |- drawn (if otruthy _ then _ else ?r) _ => set (R := r) end.
  assert (X : forall fs, (if match seen up "color" with Some v => truthy v | None => true end then Some [] else None) = Some fs -> drawn R fs).
  { intros gs G. unfold R. assert (Q : truthy match seen up "color" with Some v => v | None => VStr (L "white") end = true).
    { destruct (seen up "color") as [c|]; [destruct (truthy c); [reflexivity|discriminate]|reflexivity]. }
    rewrite Q. rewrite <- (m_has w up up' M) in F by discriminate. rewrite has_seen in F. destruct (seen up' "flip") as [f|] eqn:S; [|discriminate]. rewrite (get_seen _ _ _ S). cbn [bind].
    destruct (truthy f); apply drawn_one; intros z []. }
  destruct (seen up "image") as [v|]; cbn [otruthy]; [|apply X, H]. eapply image_or; [exact F|exact H|exact X].
Qed.
Lemma base_ok fs : needs w up place = true -> has_attr up "flip" = true ->
  match seen up "image" with Some v => Some [v] | None => Some [] end = Some fs -> drawn (draw_base up') fs.
Proof.
  intros P F H. destruct (placed P) as (po & si & E1 & E2). unfold draw_base. rewrite E2. cbn [bind]. rewrite E1. cbn [bind]. rewrite (m_has w up up' M) by discriminate. rewrite has_seen.
  destruct (seen up "image") as [v|] eqn:Si; [|apply drawn_none]. rewrite (get_seen up' "image" v) by (rewrite (m_seen w up up' M) by discriminate; exact Si). cbn [bind]. injection H as <-. apply paste_ok, F.
Qed.
Lemma fg_ok e fs count : written (kind (ehead e)) e count -> sketch_fg w up (kind (ehead e)) count = Some fs -> drawn (draw_method up' e) fs.
Proof.
  unfold sketch_fg. intros W H. cbv zeta in H. unfold when at 1 in H. destruct (needs w up place && has_attr up "flip") eqn:Q; [|discriminate]. apply andb_prop in Q as (P & F).
  unfold draw_method. destruct (kind (ehead e)); cbn [written] in W; try (apply base_ok; assumption).
  all: try (apply text_elem_ok; assumption).
  - apply field_ok; assumption.
  - destruct W as (d & D & C). eapply die_ok; eassumption.
  - destruct W as (d & D & C). eapply cube_ok; eassumption.
  - destruct W as (d & D & C). eapply resign_ok; eassumption.
  - eapply chequer_ok; eassumption.
  - apply point_ok; assumption.
Qed.
Theorem sketch_sound path e fs count : map ehead (rev path) = up' -> pyget path (-1) = Ok e -> written (kind (ehead e)) e count ->
  sketch w up (kind (ehead e)) count = Some fs -> drawn (draw_element path) fs.
Proof.
  intros U G W H. unfold draw_element. rewrite U, G. cbn [bind]. unfold sketch in H. unfold when in H.
  destruct (if has_attr up "background" then needs w up place else true) eqn:B; [|discriminate].
  assert (X : exists bg, (if has_attr up' "background" then bg_draw up' else Ok []) = Ok bg /\ flat_map loads bg = []).
  { rewrite (m_has w up up' M) by discriminate. destruct (has_attr up "background") eqn:HB; [|exists []; split; reflexivity].
    destruct (placed B) as (po & si & E1 & E2). unfold bg_draw. rewrite has_seen in HB. destruct (seen up "background") as [v|] eqn:Sb; [|discriminate].
    rewrite (get_seen up' "background" v) by (rewrite (m_seen w up up' M) by discriminate; exact Sb). cbn [bind]. rewrite E2. cbn [bind]. rewrite E1. cbn [bind]. eexists. split; reflexivity. }
  destruct X as (bg & -> & Lb). cbn [bind]. rewrite !(m_has w up up' M) by discriminate.
  destruct (has_attr up "image" || has_attr up "color").
  - destruct (fg_ok e fs count W H) as (cs & -> & I). cbn [bind]. eexists. split; [reflexivity|]. rewrite flat_map_app, Lb. exact I.
  - cbn [bind]. eexists. split; [reflexivity|]. rewrite app_nil_r, Lb. intros x [].
Qed.
End Sound.
