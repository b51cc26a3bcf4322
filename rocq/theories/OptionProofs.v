(* The options of the macro Position. *)
From Verif Require Import Py PyFacts Re Rx RxFacts HtmlModel TreeModel WikiModel WikiSpec WikiMatch CmpProofs AnalysisSpec AnalysisPage MacroSpec MacroProofs.
Open Scope string_scope.
Open Scope list_scope.
Open Scope nat_scope.

Definition blank_set : cset := Ranges false [xone " "%char].
Definition letter_set : cset := Ranges false [("a", "z"); ("A", "Z")]%char.
Definition arg (before : string) (r : rx) : rx := xcats [xlit ","; XStar blank; xlit before; r].
Lemma arg_pattern_is : arg_pattern = xcats [XGroup "gnubgid" (xcats [times 14 base64; xlit ":"; times 12 base64]);
  xopt (arg "css=" (XGroup "css" (xplus (XChr letter_set)))); xopt (arg "format" (XGroup "format" (xplus (XChr letter_set))));
  xopt (arg "width" (XGroup "width" (xplus (XChr digit_set)))); xopt (arg "height" (XGroup "height" (xplus (XChr digit_set))))].
Proof. reflexivity. Qed.
Lemma name_first : forall g rest k, position_name g -> run (XGroup "gnubgid" (xcats [times 14 base64; xlit ":"; times 12 base64])) k (mkspot true (g ++ rest) []) = k (mkspot false rest [("gnubgid", g)]).
Proof.
  intros g rest k (pid & mid & E & Lp & Lm & C). rewrite run_group.
  match goal with |- run _ ?k' _ = _ => set (K := k') end. assert (EK : K (mkspot false rest []) = k (mkspot false rest [("gnubgid", g)])).
  { unfold K. cbn [fresh left caps]. rewrite between_app. reflexivity. }
  clearbody K. rewrite E, <- !app_assoc.
  assert (T1 : forall k r, run (times 14 base64) k (mkspot true (pid ++ r) []) = k (mkspot false r [])).
  { intros k0 r. rewrite <- Lp. apply run_times; [intros c I; apply id_in, C, in_or_app; left; exact I|intros ->; discriminate Lp]. }
  assert (T2 : forall k, run (times 12 base64) k (mkspot false (mid ++ rest) []) = k (mkspot false rest [])).
  { intros k0. rewrite <- Lm. apply run_times; [intros c I; apply id_in, C, in_or_app; right; exact I|intros ->; discriminate Lm]. }
  rewrite run_xcats, T1, run_xcats. rewrite run_lit by discriminate. change (xcats [times 12 base64]) with (times 12 base64). rewrite T2, EK, E. reflexivity.
Qed.
Lemma opt_skip : forall a k st, run a k st = None -> run (xopt a) k st = k st.
Proof. intros a k st H. unfold xopt. change (run (XAlt a XEps) k st) with (match run a k st with Some x => Some x | None => k st end). rewrite H. reflexivity. Qed.
(* an option that is there *)
Lemma arg_taken : forall b n p k m v rest f c x, b <> ""%string -> stops blank_set (L b) -> v <> [] -> all_in p v -> stops p rest ->
  k (mkspot false rest ((n, v) :: c)) = Some x -> run (xopt (arg b (XGroup n (xplus (XChr p))))) k (mkspot f (L "," ++ repeat " "%char m ++ L b ++ v ++ rest) c) = Some x.
Proof.
  intros b n p k m v rest f c x Nb Sb Nv Av Sr H. apply run_opt. unfold arg. rewrite run_xcats, run_lit by discriminate. rewrite run_xcats. apply star_chars.
  - intros d I. apply repeat_spec in I. rewrite I. reflexivity.
  - destruct b as [|d b]; [congruence|]. exact Sb.
  - rewrite run_xcats, run_lit by exact Nb. apply (group_plus n p k v rest); assumption.
Qed.
(* blanks are passed over *)
Lemma star_blanks : forall st w st', steps (XStar blank) st w st' -> w = repeat " "%char (List.length w) /\ caps st' = caps st.
Proof.
  intros st w st' H. remember (XStar blank) as r eqn:E. induction H; try discriminate E; [split; reflexivity|]. injection E as ->. destruct (IHsteps2 eq_refl) as (W & C). clear IHsteps1 IHsteps2.
  apply inv_chr in H. destruct H as (c & -> & I & Cc & _). apply (one_false " " c) in I. subst c.
  split; [cbn; f_equal; exact W|congruence].
Qed.
Lemma repeat_split : forall (c : ascii) m w s rest, repeat c m ++ s = w ++ rest -> w = repeat c (List.length w) -> match s with [] => False | d :: _ => d <> c end -> rest = s \/ exists z, rest = c :: z.
Proof.
  induction m as [|m IH]; intros w s rest E W N.
  - destruct w as [|d w]; [left; symmetry; exact E|]. exfalso. injection W as -> _. cbn in E. subst s. apply N. reflexivity.
  - destruct w as [|d w]; [right; exists (repeat c m ++ s); symmetry; exact E|]. injection W as -> W. injection E as E. exact (IH w s rest E W N).
Qed.
Lemma arg_missed : forall b r k m s f c, match s with [] => False | d :: _ => d <> " "%char end ->
  (forall f' z, run (XCat (xlit b) r) k (mkspot f' (" "%char :: z) c) = None) -> (forall f', run (XCat (xlit b) r) k (mkspot f' s c) = None) ->
  run (arg b r) k (mkspot f (L "," ++ repeat " "%char m ++ s) c) = None.
Proof.
  intros b r k m s f c N H1 H2. unfold arg. rewrite run_xcats, run_lit by discriminate. rewrite run_xcats.
  match goal with |- ?e = None => destruct e as [x|] eqn:E; [exfalso|reflexivity] end. apply run_steps in E. destruct E as (w & st' & S & K).
  pose proof (steps_left _ _ _ _ S) as Lf. apply star_blanks in S. destruct S as (W & C). cbn [left] in Lf. cbn [caps] in C.
  destruct st' as [f' l c']. cbn [left caps] in *. subst c'. change (run (xcats [xlit b; r]) k) with (run (XCat (xlit b) r) k) in K.
  destruct (repeat_split _ _ _ _ _ Lf W N) as [-> |(z & ->)]; [rewrite H2 in K|rewrite H1 in K]; discriminate.
Qed.
(* text that is none of the options *)
Lemma no_comma : forall b r k s f c, match s with d :: _ => d <> ","%char | [] => True end -> run (arg b r) k (mkspot f s c) = None.
Proof.
  intros b r k s f c H. unfold arg. rewrite run_xcats. destruct s as [|d s]; [reflexivity|].
  change ((if Ascii.eqb "," d then run (xcats [XStar blank; xlit b; r]) k (mkspot false s c) else None) = None). destruct (Ascii.eqb_spec "," d) as [<-|]; [congruence|reflexivity].
Qed.

(* the text of the options that are left: nothing, or a comma, blanks and another word *)
Lemma missed_word : forall b n p k rest f c d, match L b with [] => False | e :: _ => e <> " "%char /\ e <> d end ->
  rest = [] \/ (exists m z, rest = L "," ++ repeat " "%char m ++ d :: z /\ d <> " "%char) -> run (xopt (arg b (XGroup n (xplus (XChr p))))) k (mkspot f rest c) = k (mkspot f rest c).
Proof.
  intros b n p k rest f c d Nb [-> |(m & z & -> & Nd)]; apply opt_skip; [apply no_comma; exact Logic.I|].
  destruct b as [|e b]; [destruct Nb|]. change (L (String e b)) with (e :: L b) in Nb. destruct Nb as (Ne & Ned).
  assert (G : forall x y k' f', e <> x -> run (XCat (xlit (String e b)) (XGroup n (xplus (XChr p)))) k' (mkspot f' (x :: y) c) = None).
  { intros x y k' f' Nx. change (xlit (String e b)) with (XCat (XChr (One e)) (xlit b)). rewrite !run_cat. cbn [run left caps inset]. apply Ascii.eqb_neq in Nx. rewrite Nx. reflexivity. }
  apply arg_missed; [exact Nd|intros; apply G; exact Ne|intros; apply G; exact Ned].
Qed.
Definition follows (ds : list ascii) (rest : str) : Prop := rest = [] \/ exists m d z, In d ds /\ rest = L "," ++ repeat " "%char m ++ d :: z.
Definition of_set (p : cset) (o : option (nat * str)) : Prop := match o with Some (_, v) => v <> [] /\ all_in p v | None => True end.
Definition took (n : string) (o : option (nat * str)) (c : list (string * str)) : list (string * str) := match o with Some (_, v) => (n, v) :: c | None => c end.
Lemma stage : forall e b n p k o rest ds c x, e <> " "%char -> of_set p o -> follows ds rest -> (forall d, In d ds -> d <> " "%char /\ e <> d) -> inset p ","%char = false ->
  k (mkspot false rest (took n o c)) = Some x -> run (xopt (arg (String e b) (XGroup n (xplus (XChr p))))) k (mkspot false (opt_text (String e b) o ++ rest) c) = Some x.
Proof.
  intros e b n p k o rest ds c x Ne Ho Fo Nd Np H. destruct o as [[m v]|]; cbn [opt_text took of_set] in *.
  - destruct Ho as (Nv & Av). rewrite <- !app_assoc. apply arg_taken; try assumption; [discriminate| |].
    + change (stops blank_set (e :: L b)). cbn [stops]. destruct (inset blank_set e) eqn:E; [|reflexivity]. apply one_false in E. congruence.
    + destruct Fo as [-> |(m' & d & z & _ & ->)]; [exact Logic.I|exact Np].
  - cbn [app]. destruct Fo as [-> |(m' & d & z & Id & ->)].
    + rewrite opt_skip by (apply no_comma; exact Logic.I). exact H.
    + destruct (Nd d Id) as (N1 & N2). rewrite (missed_word (String e b) n p k _ false c d); [exact H|split; assumption|right; exists m', z; split; [reflexivity|exact N1]].
Qed.
Lemma follow_text : forall e b o rest ds, follows ds rest -> follows (e :: ds) (opt_text (String e b) o ++ rest).
Proof.
  intros e b o rest ds H. destruct o as [[m v]|]; cbn [opt_text].
  - right. exists m, e, (L b ++ v ++ rest). split; [left; reflexivity|]. rewrite <- !app_assoc. reflexivity.
  - destruct H as [-> |(m & d & z & I & ->)]; [left; reflexivity|]. right. exists m, d, z. split; [right; exact I|reflexivity].
Qed.
Lemma letters_set : forall o, letters_only o -> of_set letter_set o.
Proof.
  intros [[m v]|] H; [|exact Logic.I]. destruct H as (N & H). split; [exact N|]. intros c I. specialize (H c I). revert H. generalize c. clear. intros c H.
  assert (G : forallb (inset letter_set) (L "ABCDEFGHIJKLMNOPQRSTUVWXYZabcdefghijklmnopqrstuvwxyz") = true) by (vm_compute; reflexivity). rewrite forallb_forall in G. exact (G c H).
Qed.
Lemma digits_set : forall o, digits_only o -> of_set digit_set o.
Proof.
  intros [[m v]|] H; [|exact Logic.I]. destruct H as (N & H). split; [exact N|]. intros c I. specialize (H c I). revert H. generalize c. clear. intros c H.
  assert (G : forallb (inset digit_set) (L "0123456789") = true) by (vm_compute; reflexivity). rewrite forallb_forall in G. exact (G c H).
Qed.
Definition all_options (css format width height : option (nat * str)) : str := opt_text "css=" css ++ opt_text "format" format ++ opt_text "width" width ++ opt_text "height" height.
Lemma options_parsed : forall g css format width height, position_name g -> letters_only css -> letters_only format -> digits_only width -> digits_only height ->
  parse_position (Some (g ++ all_options css format width height))
  = Ok (Some (request g (opt_value width (L "400")) (opt_value height (L "300")) (opt_value format (L "png")) (opt_value css (L "minimal")))).
Proof.
  intros g css format width height Hg Hc Hf Hw Hh. unfold parse_position.
  assert (R : run arg_pattern Some (mkspot true (g ++ all_options css format width height) [])
    = Some (mkspot false [] (took "height" height (took "width" width (took "format" format (took "css" css [("gnubgid", g)])))))).
  { rewrite arg_pattern_is, run_xcats, name_first by exact Hg. unfold all_options.
    pose proof (follow_text "h" "eight" height [] [] (or_introl eq_refl)) as F3. rewrite app_nil_r in F3.
    pose proof (follow_text "w" "idth" width _ _ F3) as F2. pose proof (follow_text "f" "ormat" format _ _ F2) as F1.
    rewrite run_xcats. apply (stage "c" "ss=" "css" letter_set _ css _ _ _ _ ltac:(discriminate) (letters_set css Hc) F1); [intros d I; cbn in I; intuition (subst; discriminate)|reflexivity|].
    rewrite run_xcats. apply (stage "f" "ormat" "format" letter_set _ format _ _ _ _ ltac:(discriminate) (letters_set format Hf) F2); [intros d I; cbn in I; intuition (subst; discriminate)|reflexivity|].
    rewrite run_xcats. apply (stage "w" "idth" "width" digit_set _ width _ _ _ _ ltac:(discriminate) (digits_set width Hw) F3); [intros d I; cbn in I; intuition (subst; discriminate)|reflexivity|].
    rewrite <- (app_nil_r (opt_text "height" height)).
    apply (stage "h" "eight" "height" digit_set _ height _ _ _ _ ltac:(discriminate) (digits_set height Hh) (or_introl eq_refl : follows [] [])); [intros d []|reflexivity|]. reflexivity. }
  rewrite R. unfold request. clear R.
  assert (V : forall n (o : option (nat * str)) dflt, match o with Some (_, v) => v <> [] | None => True end -> (n, match match o with Some (_, v) => Some v | None => None end with Some ((_ :: _) as s) => s | _ => dflt end) = (n : string, opt_value o dflt)).
  { intros n [[m [|d v]]|] dflt Q; [congruence|reflexivity|reflexivity]. }
  assert (Vw : match width with Some (_, v) => v <> [] | None => True end) by (destruct width as [[? ?]|]; [exact (proj1 Hw)|exact Logic.I]).
  assert (Vh : match height with Some (_, v) => v <> [] | None => True end) by (destruct height as [[? ?]|]; [exact (proj1 Hh)|exact Logic.I]).
  assert (Vf : match format with Some (_, v) => v <> [] | None => True end) by (destruct format as [[? ?]|]; [exact (proj1 Hf)|exact Logic.I]).
  assert (Vc : match css with Some (_, v) => v <> [] | None => True end) by (destruct css as [[? ?]|]; [exact (proj1 Hc)|exact Logic.I]).
  rewrite <- (V "width" width _ Vw), <- (V "height" height _ Vh), <- (V "format" format _ Vf), <- (V "css" css _ Vc).
  destruct css as [[? ?]|], format as [[? ?]|], width as [[? ?]|], height as [[? ?]|]; reflexivity.
Qed.
(* an option with an equals sign *)
Lemma equals_ignored : forall g o m z, position_name g -> In o ["format"; "width"; "height"] ->
  parse_position (Some (g ++ L "," ++ repeat " "%char m ++ L o ++ L "=" ++ z)) = Ok (Some (plain_request g)).
Proof.
  intros g o m z Hg Ho. unfold parse_position.
  assert (R : run arg_pattern Some (mkspot true (g ++ L "," ++ repeat " "%char m ++ L o ++ L "=" ++ z) []) = Some (mkspot false (L "," ++ repeat " "%char m ++ L o ++ L "=" ++ z) [("gnubgid", g)])).
  { rewrite arg_pattern_is, run_xcats, name_first by exact Hg.
    destruct Ho as [<-|[<-|[<-|[]]]].
    all: rewrite run_xcats, opt_skip by (apply arg_missed; [discriminate|reflexivity|reflexivity]).
    all: rewrite run_xcats, opt_skip by (apply arg_missed; [discriminate|reflexivity|reflexivity]).
    all: rewrite run_xcats, opt_skip by (apply arg_missed; [discriminate|reflexivity|reflexivity]).
    all: change (xcats [xopt (arg "height" (XGroup "height" (xplus (XChr digit_set))))]) with (xopt (arg "height" (XGroup "height" (xplus (XChr digit_set))))); rewrite opt_skip by (apply arg_missed; [discriminate|reflexivity|reflexivity]); reflexivity. }
  rewrite R. reflexivity.
Qed.
(* anything but a comma after the name *)
Lemma rest_ignored : forall g z, position_name g -> match z with d :: _ => d <> ","%char | [] => True end -> parse_position (Some (g ++ z)) = Ok (Some (plain_request g)).
Proof.
  intros g z Hg Hz. unfold parse_position. assert (R : run arg_pattern Some (mkspot true (g ++ z) []) = Some (mkspot false z [("gnubgid", g)])).
  { rewrite arg_pattern_is, run_xcats, name_first by exact Hg. rewrite !run_xcats, opt_skip by (apply no_comma; exact Hz). rewrite run_xcats, opt_skip by (apply no_comma; exact Hz). rewrite run_xcats, opt_skip by (apply no_comma; exact Hz).
    change (xcats [xopt (arg "height" (XGroup "height" (xplus (XChr digit_set))))]) with (xopt (arg "height" (XGroup "height" (xplus (XChr digit_set))))); rewrite opt_skip by (apply no_comma; exact Hz); reflexivity. }
  rewrite R. reflexivity.
Qed.
Lemma listed : forall l m c, forallb (fun c => existsb (Ascii.eqb c) m) l = true -> In c l -> In c m.
Proof. intros l m c G I. rewrite forallb_forall in G. specialize (G c I). apply existsb_exists in G. destruct G as (y & Iy & E). apply Ascii.eqb_eq in E. rewrite E. exact Iy. Qed.
Lemma arg_listed : forall l, forallb (fun c => existsb (Ascii.eqb c) (L "ABCDEFGHIJKLMNOPQRSTUVWXYZabcdefghijklmnopqrstuvwxyz0123456789+, .=/#:")) l = true -> forall c, In c l -> arg_char c.
Proof. intros l G c I. exact (listed l _ c G I). Qed.
Lemma opt_args : forall b o, (forall c, In c (L b) -> arg_char c) -> letters_only o \/ digits_only o -> forall c, In c (opt_text b o) -> arg_char c.
Proof.
  intros b [[m v]|] Hb Ho c I; [|destruct I]. cbn [opt_text] in I. apply in_app_or in I. destruct I as [I|I]; [revert I; apply arg_listed; reflexivity|].
  apply in_app_or in I. destruct I as [I|I]; [apply repeat_spec in I; subst c; apply (arg_listed [" "%char]); [reflexivity|left; reflexivity]|].
  apply in_app_or in I. destruct I as [I|I]; [exact (Hb c I)|]. destruct Ho as [(_ & H)|(_ & H)]; specialize (H c I); revert H; apply arg_listed; vm_compute; reflexivity.
Qed.
Lemma more_args : forall g z, position_name g -> (forall c, In c z -> arg_char c) -> macro_args (g ++ z).
Proof.
  intros g z Hg Hz. destruct (position_args g Hg) as (N & A). split; [destruct g; [congruence|discriminate]|]. intros c I. apply in_app_or in I. destruct I as [I|I]; auto.
Qed.
Lemma options_shown : forall design_order wikipath now urlencode analysis rst g, position_name g ->
  let page a := html design_order wikipath now urlencode analysis rst (call (L "Position") (Some (g ++ a))) in
  (forall css format width height, letters_only css -> letters_only format -> digits_only width -> digits_only height ->
     page (opt_text "css=" css ++ opt_text "format" format ++ opt_text "width" width ++ opt_text "height" height)
     = Ok (picture_page urlencode (request g (opt_value width (L "400")) (opt_value height (L "300")) (opt_value format (L "png")) (opt_value css (L "minimal"))))) /\
  (forall o blanks z, In o ["format"; "width"; "height"] -> (forall c, In c z -> arg_char c) ->
     page (opt_text o (Some (blanks, L "=" ++ z))) = Ok (picture_page urlencode (plain_request g))) /\
  (forall z, (forall c, In c z -> arg_char c) -> match z with d :: _ => d <> ","%char | [] => True end ->
     page z = Ok (picture_page urlencode (plain_request g))).
Proof.
  intros design_order wikipath now urlencode analysis rst g Hg page. split; [|split].
  - intros css format width height Hc Hf Hw Hh. apply picture_shown; [|apply options_parsed; assumption]. apply more_args; [exact Hg|]. intros c I.
    assert (B : forall b, forallb (fun c => existsb (Ascii.eqb c) (L "ABCDEFGHIJKLMNOPQRSTUVWXYZabcdefghijklmnopqrstuvwxyz0123456789+, .=/#:")) (L b) = true -> forall c, In c (L b) -> arg_char c) by (intros b G; exact (arg_listed (L b) G)).
    apply in_app_or in I. destruct I as [I|I]; [exact (opt_args "css=" css (B "css=" eq_refl) (or_introl Hc) c I)|].
    apply in_app_or in I. destruct I as [I|I]; [exact (opt_args "format" format (B "format" eq_refl) (or_introl Hf) c I)|].
    apply in_app_or in I. destruct I as [I|I]; [exact (opt_args "width" width (B "width" eq_refl) (or_intror Hw) c I)|exact (opt_args "height" height (B "height" eq_refl) (or_intror Hh) c I)].
  - intros o m z Ho Hz. apply picture_shown; [|cbn [opt_text]; apply (equals_ignored g o m z Hg Ho)]. apply more_args; [exact Hg|]. intros c I. cbn [opt_text] in I.
    apply in_app_or in I. destruct I as [I|I]; [revert I; apply arg_listed; reflexivity|]. apply in_app_or in I. destruct I as [I|I]; [apply repeat_spec in I; subst c; apply (arg_listed [" "%char]); [reflexivity|left; reflexivity]|].
    apply in_app_or in I. destruct I as [I|I]; [destruct Ho as [<-|[<-|[<-|[]]]]; revert I; apply arg_listed; reflexivity|]. destruct I as [<-|I]; [apply (arg_listed ["="%char]); [reflexivity|left; reflexivity]|exact (Hz c I)].
  - intros z Hz Nz. apply picture_shown; [apply more_args; assumption|apply rest_ignored; assumption].
Qed.
(* the size that is asked for is not the size that is shown *)
Lemma width_ignored : exists g a, position_name g /\ a = g ++ L ", width=600, height=450" /\ forall design_order wikipath now urlencode analysis rst,
  html design_order wikipath now urlencode analysis rst (call (L "Position") (Some a)) = Ok (picture_page urlencode (request g (L "400") (L "300") (L "png") (L "minimal"))).
Proof.
  exists (L "4HPwATDgc/ABMA:cIkKAAAAAAAA"). eexists. assert (P : position_name (L "4HPwATDgc/ABMA:cIkKAAAAAAAA")).
  { exists (L "4HPwATDgc/ABMA"), (L "cIkKAAAAAAAA"). repeat split. intros c I. revert I. apply listed. vm_compute. reflexivity. }
  split; [exact P|]. split; [reflexivity|]. intros. destruct (options_shown design_order wikipath now urlencode analysis rst _ P) as (_ & H & _).
  specialize (H "width" 1 (L "600, height=450") (or_intror (or_introl eq_refl))). change (opt_text "width" (Some (1, L "=" ++ L "600, height=450"))) with (L ", width=600, height=450") in H. apply H. apply arg_listed. vm_compute. reflexivity.
Qed.
