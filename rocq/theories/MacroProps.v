(* Properties C156 and C157: pages that are one call of a macro *)
From Verif Require Import Py HtmlModel TreeModel TreeSpec WikiModel AnalysisSpec MacroSpec MacroProofs OptionProofs OptionMore.
Open Scope string_scope.
Open Scope list_scope.

(* C156 *)
Theorem C156_macros : forall (design_order : list string) (wikipath now : str) (urlencode : list (string * str) -> str) (analysis : str -> res (list table)) rst,
  let page := html design_order wikipath now urlencode analysis rst in
  (forall name args, macro_name name -> ~ In name (map (fun n => L n) known) -> good_args args ->
     page (call name args) = Ok (error_page (L "No such macro " ++ quoted name ++ L " with argument " ++ quoted (match args with Some a => a | None => L "None" end)))) /\
  (forall name a, name = L "Position" \/ name = L "Analysis" -> macro_args a -> ~ names_position a ->
     page (call name (Some a)) = Ok (error_page (L "Bad args " ++ quoted a ++ L " for " ++ name ++ [newline]))) /\
  (forall g, position_name g ->
     page (call (L "Position") (Some g)) = Ok (picture_page urlencode (plain_request g))) /\
  (forall args, good_args args ->
     page (call (L "BR") args) = Ok (page_of (L "<br />" ++ [newline])) /\
     page (call (L "Timestamp") args) = Ok (page_of (written_element "strong" [] (now ++ [newline])))).
Proof. exact macro_pages. Qed.
Print Assumptions C156_macros.

Definition opening_name : str := L "4HPwATDgc/ABMA:cIkKAAAAAAAA".
Example C156_names : macro_name (L "Boad") /\ ~ In (L "Boad") (map (fun n => L n) known) /\ macro_args (L "4HPwATDgc") /\ ~ names_position (L "4HPwATDgc") /\ position_name opening_name.
Proof.
  assert (W : forall l s, s <> [] -> forallb (fun c => existsb (Ascii.eqb c) l) s = true -> s <> [] /\ forall c, In c s -> In c l).
  { intros l s N H. split; [exact N|]. intros c I. rewrite forallb_forall in H. specialize (H c I). apply existsb_exists in H. destruct H as (y & Iy & E). apply Ascii.eqb_eq in E. rewrite E. exact Iy. }
  split; [apply W; [discriminate|reflexivity]|]. split; [intros H; cbn in H; intuition discriminate|]. split; [apply W; [discriminate|reflexivity]|].
  split; [intros (g & rest & E & pid & mid & -> & Lp & Lm & _); apply (f_equal (@List.length ascii)) in E; rewrite !app_length, Lp, Lm in E; cbn in E; discriminate|].
  exists (L "4HPwATDgc/ABMA"), (L "cIkKAAAAAAAA"). repeat split. apply (W (L "ABCDEFGHIJKLMNOPQRSTUVWXYZabcdefghijklmnopqrstuvwxyz0123456789+/")); [discriminate|reflexivity].
Qed.
(* what the pages look like; a line of the source is a line here, and quotes are single *)
Definition looks (s : str) : str := map (fun c => if Ascii.eqb c newline then "~"%char else if Ascii.eqb c quote then "'"%char else c) s.
Example C156_shown :
  looks (call (L "Boad") (Some (L "4HPwATDgc"))) = L "[[Boad(4HPwATDgc)]]" /\
  looks (error_page (L "No such macro " ++ quoted (L "Boad") ++ L " with argument " ++ quoted (L "None"))) = L "<div>~<span class='error'>~No such macro 'Boad' with argument 'None'~</span>~</div>~" /\
  looks (page_of (written_element "strong" [] (L "2026-11-16" ++ [newline]))) = L "<div>~<strong>~2026-11-16~</strong>~</div>~".
Proof. vm_compute. auto. Qed.

Theorem C156_arguments : forall (design_order : list string) (wikipath now : str) (urlencode : list (string * str) -> str) (analysis : str -> res (list table)) rst, 
  (forall g z, position_name g -> (forall c, In c z -> arg_char c) ->
     html design_order wikipath now urlencode analysis rst (call (L "Analysis") (Some (g ++ z))) = html design_order wikipath now urlencode analysis rst (call (L "Analysis") (Some g)) /\
     exists width height format css, html design_order wikipath now urlencode analysis rst (call (L "Position") (Some (g ++ z))) = Ok (picture_page urlencode (request g width height format css))) /\
  html design_order wikipath now urlencode analysis rst (call (L "Position") None) = Exc TypeError /\ html design_order wikipath now urlencode analysis rst (call (L "Analysis") None) = Exc TypeError.
Proof. exact any_arguments. Qed.
Print Assumptions C156_arguments.

Example C156_arguments_case : forall c, In c (L ", colour=blue") -> arg_char c.
Proof.
  intros c I. assert (W : forallb (fun c => existsb (Ascii.eqb c) (L "ABCDEFGHIJKLMNOPQRSTUVWXYZabcdefghijklmnopqrstuvwxyz0123456789+, .=/#:")) (L ", colour=blue") = true) by reflexivity.
  rewrite forallb_forall in W. specialize (W c I). apply existsb_exists in W. destruct W as (y & Iy & E). apply Ascii.eqb_eq in E. rewrite E. exact Iy.
Qed.

(* C157: what is expected is the size of the call, 600 by 450 *)
Theorem C157_refuted : exists g a, position_name g /\ a = g ++ L ", width=600, height=450" /\ forall design_order wikipath now urlencode analysis rst,
  html design_order wikipath now urlencode analysis rst (call (L "Position") (Some a)) = Ok (picture_page urlencode (request g (L "400") (L "300") (L "png") (L "minimal"))).
Proof. exact width_ignored. Qed.
Print Assumptions C157_refuted.

(* C157 *)
Theorem C157_options_partial : forall design_order wikipath now urlencode analysis rst g, position_name g ->
  let page a := html design_order wikipath now urlencode analysis rst (call (L "Position") (Some (g ++ a))) in
  (forall css format width height, letters_only css -> letters_only format -> digits_only width -> digits_only height ->
     page (opt_text "css=" css ++ opt_text "format" format ++ opt_text "width" width ++ opt_text "height" height)
     = Ok (picture_page urlencode (request g (opt_value width (L "400")) (opt_value height (L "300")) (opt_value format (L "png")) (opt_value css (L "minimal"))))) /\
  (forall o blanks z, In o ["format"; "width"; "height"] -> (forall c, In c z -> arg_char c) ->
     page (opt_text o (Some (blanks, L "=" ++ z))) = Ok (picture_page urlencode (plain_request g))) /\
  (forall z, (forall c, In c z -> arg_char c) -> match z with d :: _ => d <> ","%char | [] => True end ->
     page z = Ok (picture_page urlencode (plain_request g))).
Proof. exact options_shown. Qed.
Print Assumptions C157_options_partial.
Example C157_case : position_name opening_name /\ letters_only (Some (1%nat, L "nature")) /\ digits_only (Some (0%nat, L "600")) /\
  opt_text "css=" (Some (1%nat, L "nature")) ++ opt_text "width" (Some (0%nat, L "600")) = L ", css=nature,width600" /\
  opt_text "width" (Some (1%nat, L "=" ++ L "600")) = L ", width=600".
Proof.
  split; [exact (proj2 (proj2 (proj2 (proj2 C156_names))))|]. assert (W : forall l s, s <> [] -> forallb (fun c => existsb (Ascii.eqb c) l) s = true -> s <> [] /\ forall c, In c s -> In c l).
  { intros l s N H. split; [exact N|]. intros c I. rewrite forallb_forall in H. specialize (H c I). apply existsb_exists in H. destruct H as (y & Iy & E). apply Ascii.eqb_eq in E. rewrite E. exact Iy. }
  split; [apply W; [discriminate|reflexivity]|]. split; [apply W; [discriminate|reflexivity]|]. split; reflexivity.
Qed.
