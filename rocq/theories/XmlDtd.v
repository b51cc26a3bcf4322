(* The document type definition, and documents that conform to it. *)
From Verif Require Import Py PyFacts Dict DictFacts UtilModel BoardModel BoardSpec ImageModel ImageSpec ImageCss ImageTree AttrProofs DrawnSpec DrawnTree XmlModel XmlSpec XmlProofs XmlTree XmlStyle.
From Coq Require Import Permutation.
Open Scope string_scope.
Open Scope list_scope.
Open Scope Z_scope.

(* ---- words ---- *)
Lemma words_acc w : forallb (fun c => negb (blank c)) w = true -> forall acc b s, blank b = true -> (acc <> [] \/ w <> []) -> words_from acc (w ++ b :: s) = (rev acc ++ w) :: words_of s.
Proof.
  induction w as [|c w IH]; intros W acc b s B N.
  - cbn [app words_from]. rewrite B. destruct acc; [destruct N; congruence|]. rewrite app_nil_r. reflexivity.
  - cbn [forallb] in W. apply andb_prop in W as (C & W). apply negb_true_iff in C. cbn [app words_from]. rewrite C.
    rewrite IH; [|exact W|exact B|left; discriminate]. cbn [rev]. rewrite <- app_assoc. reflexivity.
Qed.
Lemma words_one w b s : forallb (fun c => negb (blank c)) w = true -> w <> [] -> blank b = true -> words_of (w ++ b :: s) = w :: words_of s.
Proof. intros W N B. unfold words_of at 1. rewrite words_acc by auto. reflexivity. Qed.
Lemma words_skip a s : forallb blank a = true -> words_of (a ++ s) = words_of s.
Proof. induction a as [|c a IH]; [reflexivity|]. cbn [forallb]. intros A. apply andb_prop in A as (C & A). unfold words_of in *. cbn [app words_from]. rewrite C. exact (IH A). Qed.
Lemma name_word n : is_name n = true -> forallb (fun c => negb (blank c)) n = true /\ n <> [].
Proof.
  intros N. split; [|destruct n; [discriminate|congruence]]. apply name_chars in N. rewrite forallb_forall in *. intros c I. destruct (name_char_solid c (N c I)) as (-> & _). reflexivity.
Qed.
Definition att_line (n : str) : str := L "   " ++ n ++ L " CDATA #IMPLIED".
Definition att_words (n : str) : list str := [n; L "CDATA"; L "#IMPLIED"].
Lemma line_words n s : is_name n = true -> words_of (att_line n ++ [newline] ++ s) = att_words n ++ words_of s.
Proof.
  intros N. destruct (name_word n N) as (W & Ne). unfold att_line. rewrite <- !app_assoc, words_skip by reflexivity.
  change (L " CDATA #IMPLIED" ++ [newline] ++ s) with (" "%char :: L "CDATA #IMPLIED" ++ [newline] ++ s). rewrite words_one by auto. reflexivity.
Qed.
Lemma lines_words l s : l <> [] -> forallb is_name l = true -> words_of (join [newline] (map att_line l) ++ [newline] ++ s) = flat_map att_words l ++ words_of s.
Proof.
  intros Ne. induction l as [|n l IH]; [congruence|]. cbn [forallb]. intros H. apply andb_prop in H as (N & H). destruct l as [|m l].
  - cbn [map join flat_map]. rewrite line_words by exact N. reflexivity.
  - change (join [newline] (map att_line (n :: m :: l))) with (att_line n ++ [newline] ++ join [newline] (map att_line (m :: l))). rewrite <- !app_assoc, line_words by exact N.
    rewrite IH by (congruence || exact H). reflexivity.
Qed.
Lemma attdefs_ok l ws : forallb is_name l = true -> attdefs (flat_map att_words l ++ L ">" :: ws) = Some (l, ws).
Proof.
  induction l as [|n l IH]; [reflexivity|]. cbn [forallb]. intros H. apply andb_prop in H as (N & H). cbn [flat_map att_words app attdefs].
  assert (G : str_eqb n (L ">") = false) by (destruct (str_eqb n (L ">")) eqn:E; [apply str_eqb_eq in E; subst n; discriminate|reflexivity]). rewrite G, N.
  change (str_eqb (L "CDATA") (L "CDATA")) with true. change (str_eqb (L "#IMPLIED") (L "#IMPLIED")) with true. cbn [andb]. fold att_words. rewrite IH by exact H. reflexivity.
Qed.
Lemma element_words k s : words_of (make_DTD_ELEMENT k ++ [newline] ++ L "<!ATTLIST " ++ ename k ++ L " " ++ [newline] ++ s) =
  [L "<!ELEMENT"; ename k; L "(" ++ join (L "|") (dtd_element k) ++ L ")*"; L ">"; L "<!ATTLIST"; ename k] ++ words_of s.
Proof. destruct k; reflexivity. Qed.
Lemma choice_ok k : choice_of (L "(" ++ join (L "|") (dtd_element k) ++ L ")*") = Some (dtd_element k).
Proof. destruct k; vm_compute; reflexivity. Qed.
Lemma nodup_distinct l : NoDup l -> distinct l = true.
Proof.
  induction 1 as [|x l I N IH]; [reflexivity|]. cbn [distinct]. rewrite IH, Bool.andb_true_r. apply negb_true_iff. destruct (existsb (str_eqb x) l) eqn:E; [|reflexivity].
  apply existsb_exists in E as (y & J & E). apply str_eqb_eq in E as ->. contradiction.
Qed.

Section Dtd.
Variable keys_of : list (str * aclass) -> list (str * aclass).
Hypothesis listing : listed keys_of.
Definition names_of (k : ekind) : list str := map fst (keys_of (attlist k)).
Definition declare (k : ekind) : list decl := [Contents (ename k) (dtd_element k); Attributes (ename k) (names_of k)].
Lemma names_ok k : names_of k <> [] /\ forallb is_name (names_of k) = true.
Proof.
  assert (X : forallb (fun nc : str * aclass => is_name (fst nc)) (attlist k) = true) by (destruct k; vm_compute; reflexivity). unfold names_of. split.
  - intros E. apply map_eq_nil in E. pose proof (Permutation_length (listing (attlist k))) as P. rewrite E in P. destruct k; discriminate.
  - rewrite forallb_forall in *. intros n I. apply in_map_iff in I as (nc & <- & I). apply X, (Permutation_in _ (listing _)), I.
Qed.
Definition one_class (k : ekind) : str :=
  make_DTD_ELEMENT k ++ [newline] ++ L "<!ATTLIST " ++ ename k ++ L " " ++ [newline] ++ join [newline] (make_DTD_ATTLIST keys_of k) ++ [newline] ++ L ">" ++ [newline].
Lemma class_words k s : words_of (one_class k ++ s) =
  [L "<!ELEMENT"; ename k; L "(" ++ join (L "|") (dtd_element k) ++ L ")*"; L ">"; L "<!ATTLIST"; ename k] ++ flat_map att_words (names_of k) ++ L ">" :: words_of s.
Proof.
  assert (E : make_DTD_ATTLIST keys_of k = map att_line (names_of k)) by (unfold make_DTD_ATTLIST, names_of; rewrite map_map; reflexivity).
  unfold one_class. rewrite <- !app_assoc, element_words, E. f_equal.
  destruct (names_ok k) as (A & B). rewrite (lines_words (names_of k) (L ">" ++ [newline] ++ s)) by assumption. reflexivity.
Qed.
Lemma decls_ok : forall cl fuel, (2 * List.length cl < fuel)%nat -> decls fuel (words_of (make_dtd keys_of cl)) = Some (flat_map declare cl).
Proof.
  induction cl as [|k cl IH]; intros fuel F; [destruct fuel; [cbn in F; lia|reflexivity]|].
  change (make_dtd keys_of (k :: cl)) with (one_class k ++ make_dtd keys_of cl). rewrite class_words. destruct fuel as [|[|fuel]]; try (cbn in F; lia).
  set (rest := words_of (make_dtd keys_of cl)) in *.
  assert (E : forall ws, decls (S (S fuel)) (L "<!ELEMENT" :: ename k :: (L "(" ++ join (L "|") (dtd_element k) ++ L ")*") :: L ">" :: ws) = let? ds := decls (S fuel) ws in Some (Contents (ename k) (dtd_element k) :: ds)).
  { intros ws. cbn [decls]. rewrite ename_name, choice_ok. reflexivity. }
  cbn [app]. cbn [app] in E. rewrite E. clear E.
  assert (E : decls (S fuel) (L "<!ATTLIST" :: ename k :: flat_map att_words (names_of k) ++ L ">" :: rest) = let? ds := decls fuel rest in Some (Attributes (ename k) (names_of k) :: ds)).
  { cbn [decls]. rewrite ename_name. change (str_eqb (L "<!ATTLIST") (L "<!ELEMENT")) with false. change (str_eqb (L "<!ATTLIST") (L "<!ATTLIST")) with true. cbv iota.
    rewrite attdefs_ok by (apply names_ok). reflexivity. }
  rewrite E. unfold rest. rewrite IH by (cbn in F; lia). reflexivity.
Qed.
Lemma lines_legal l : forallb is_name l = true -> forallb legal (join [newline] (map att_line l)) = true.
Proof.
  induction l as [|n l IH]; [reflexivity|]. cbn [forallb]. intros H. apply andb_prop in H as (N & H). specialize (IH H).
  assert (Y : forallb legal (att_line n) = true) by (unfold att_line; rewrite !forallb_app, (name_legal _ N); reflexivity).
  destruct l as [|m l]; [exact Y|]. change (join [newline] (map att_line (n :: m :: l))) with (att_line n ++ [newline] ++ join [newline] (map att_line (m :: l))).
  rewrite 2 forallb_app, Y, IH. reflexivity.
Qed.
Lemma class_legal k : forallb legal (one_class k) = true.
Proof.
  assert (E : make_DTD_ATTLIST keys_of k = map att_line (names_of k)) by (unfold make_DTD_ATTLIST, names_of; rewrite map_map; reflexivity).
  unfold one_class. rewrite E. rewrite !forallb_app, (name_legal _ (ename_name k)), lines_legal by (apply names_ok).
  replace (forallb legal (make_DTD_ELEMENT k)) with true by (destruct k; vm_compute; reflexivity). reflexivity.
Qed.
Lemma dtd_legal cl : forallb legal (make_dtd keys_of cl) = true.
Proof. induction cl as [|k cl IH]; [reflexivity|]. change (make_dtd keys_of (k :: cl)) with (one_class k ++ make_dtd keys_of cl). rewrite forallb_app, class_legal. exact IH. Qed.
Lemma dtd_length cl : (2 * List.length cl <= List.length (make_dtd keys_of cl))%nat.
Proof.
  induction cl as [|k cl IH]; [cbn; lia|]. change (make_dtd keys_of (k :: cl)) with (one_class k ++ make_dtd keys_of cl). rewrite app_length. unfold one_class. rewrite !app_length. cbn [List.length L list_ascii_of_string]. lia.
Qed.
Lemma dtd_read cl : Permutation cl all_kinds -> read_dtd (make_dtd keys_of cl) = Some (flat_map declare cl).
Proof.
  intros P. unfold read_dtd. rewrite dtd_legal, decls_ok by (pose proof (dtd_length cl); lia). cbn [opt].
  assert (D : declared (flat_map declare cl) = map ename cl) by (clear; induction cl as [|k cl IH]; [reflexivity|]; cbn; rewrite <- IH; reflexivity).
  rewrite D, nodup_distinct; [reflexivity|]. apply (Permutation_NoDup (l := map ename all_kinds)); [apply Permutation_map, Permutation_sym, P|].
  assert (X : forall l, distinct l = true -> NoDup l).
  { clear. induction l as [|x l IH]; [constructor|]. cbn [distinct]. intros H. apply andb_prop in H as (N & H). constructor; [|exact (IH H)]. intros I. apply negb_true_iff in N.
    assert (T : existsb (str_eqb x) l = true) by (apply existsb_exists; exists x; split; [exact I|apply str_eqb_refl]). congruence. }
  apply X. vm_compute. reflexivity.
Qed.
Lemma kind_in k : In k all_kinds.
Proof. destruct k; cbn; auto 20. Qed.
Lemma declared_in cl k : Permutation cl all_kinds -> In (Contents (ename k) (dtd_element k)) (flat_map declare cl) /\ In (Attributes (ename k) (names_of k)) (flat_map declare cl).
Proof.
  intros P. assert (I : In k cl) by (apply (Permutation_in _ (Permutation_sym P)), kind_in). split; apply in_flat_map; exists k; (split; [exact I|]); cbn; auto.
Qed.

Variable items : list (str * attr) -> list (str * attr).
Variable fs : Floats.SpecFloat.spec_float -> str.
Hypothesis listing' : listed items.
Lemma conforms_eq ds h ks : conforms ds (meant items fs (Elem h ks)) <->
  exists l, In (Contents (ename (kind h)) l) ds /\ (forall a v, In (a, v) (given items fs h) -> exists l, In (Attributes (ename (kind h)) l) ds /\ In a l) /\
    forall c, In c ks -> match c with inl c => In (ename (kind (ehead c))) l /\ conforms ds (meant items fs c) | inr _ => In (L "#PCDATA") l end.
Proof.
  rewrite meant_eq. cbn [conforms].
  assert (X : forall l, (fix each (ks : list (node + str)) : Prop :=
       match ks with
       | [] => True
       | inl (Node m _ _ as c) :: ks => In m l /\ conforms ds c /\ each ks
       | inr _ :: ks => In (L "#PCDATA") l /\ each ks
       end) (kids_meant items fs ks) <-> forall c, In c ks -> match c with inl c => In (ename (kind (ehead c))) l /\ conforms ds (meant items fs c) | inr _ => In (L "#PCDATA") l end).
  { intros l. clear. induction ks as [|[c|s] ks IH]; cbn [kids_meant map].
    - split; [intros _ c []|auto].
    - destruct c as [h' ks']. rewrite meant_eq. split.
      + intros (A & B & C) x [<-|I]; [split; [exact A|rewrite meant_eq; exact B]|]. apply IH; [exact C|exact I].
      + intros H. destruct (H _ (or_introl eq_refl)) as (A & B). rewrite meant_eq in B. split; [exact A|]. split; [exact B|]. apply IH. intros x I. apply H. right. exact I.
    - split.
      + intros (A & B) x [<-|I]; [exact A|]. apply IH; [exact B|exact I].
      + intros H. split; [exact (H _ (or_introl eq_refl))|]. apply IH. intros x I. apply H. right. exact I. }
  split; intros (l & A & B & C); exists l; (split; [exact A|]); (split; [exact B|]); apply X, C.
Qed.
Lemma tree_conforms cl t : Permutation cl all_kinds -> neat fs t -> fine_tree t -> conforms (flat_map declare cl) (meant items fs t).
Proof.
  intros P. induction t as [h ks IH] using elem_induction. intros N F. apply conforms_eq. destruct (declared_in cl (kind h) P) as (D1 & D2).
  destruct (N (Elem h ks) (elements_self _)) as ((_ & NH) & _). destruct (F (look (Elem h ks))) as (_ & A); [unfold looks; apply in_map, elements_self|].
  exists (dtd_element (kind h)). split; [exact D1|]. split.
  - intros a v I. exists (names_of (kind h)). split; [exact D2|]. unfold given in I. apply in_map_iff in I as ((n & x) & E & I). injection E as <- _. apply (Permutation_in _ (listing' _)) in I.
    destruct (NH n x I) as (C & _). cbn [ehead] in C. destruct (class_of (kind h) n) as [c|] eqn:Ec; [|congruence]. unfold class_of in Ec. apply (dget_in str_eqb str_eqb_eq) in Ec.
    unfold names_of. apply in_map_iff. exists (n, c). split; [reflexivity|]. apply (Permutation_in _ (Permutation_sym (listing _))), Ec.
  - intros c I. specialize (A (face_of c)). cbn [look fst snd ehead children] in A. specialize (A (in_map face_of ks c I)). destruct c as [c|s]; [|exact A]. split; [exact A|].
    apply IH; [exact I| |].
    + intros x J. apply N. eapply elements_kid; eassumption.
    + intros x J. apply F. unfold looks in *. apply in_map_iff in J as (e & <- & J). apply in_map. eapply elements_kid; eassumption.
Qed.
End Dtd.
