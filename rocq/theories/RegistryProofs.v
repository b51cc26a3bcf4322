(* The registry of macros. *)
From Verif Require Import Py PyFacts Dict DictFacts WikiModel MacroSpec RegistryModel RegistrySpec.

Lemma seq_ok : forall a b : str, str_eqb a b = true <-> a = b. Proof. intros. apply str_eqb_eq. Qed.
Lemma add_found : forall r h n m, named h n -> dget str_eqb (fst (register r h)) m = if str_eqb m n then Some h else dget str_eqb r m.
Proof.
  intros r h n m N. unfold register. destruct h as [f i|f c i|c i]; cbn [named] in N; [subst f|destruct N as [-> ->]|destruct N]; cbn [callable negb get_name fst]; apply (dget_dset str_eqb seq_ok).
Qed.
Lemma add_other : forall r h, (forall n, ~ named h n) -> register r h = (r, Exc AssertionError).
Proof.
  intros r [f i|f [|] i|[|] i] N; try reflexivity; exfalso; [apply (N f); reflexivity|apply (N f); split; reflexivity].
Qed.
Lemma named_dec : forall h, (exists n, named h n) \/ (forall n, ~ named h n).
Proof. intros [f i|f [|] i|c i]; [left; exists f; reflexivity|left; exists f; split; reflexivity|right; intros n []; discriminate|right; intros n []]. Qed.
Lemma named_one : forall h n m, named h n -> named h m -> n = m.
Proof. intros [f i|f c i|c i] n m A B; cbn [named] in *; [congruence|destruct A, B; congruence|destruct A]. Qed.
Lemma named_callable : forall h n, named h n -> callable h = true.
Proof. intros [f i|f c i|c i] n A; cbn [named] in *; [reflexivity|apply A|destruct A]. Qed.
Lemma after_snoc : forall es e, after (es ++ [e]) = happens (after es) e.
Proof. intros. unfold after. rewrite fold_left_app. reflexivity. Qed.
Lemma found_last : forall es n, match dget str_eqb (after es) n with Some h => last_added es n h | None => never_added es n end.
Proof.
  intros es. induction es as [|e es IH] using rev_ind; intros n; [intros h []|]. rewrite after_snoc. specialize (IH n).
  assert (K : forall e, (forall h, e = Add h -> ~ named h n) -> match dget str_eqb (after es) n with Some h => last_added (es ++ [e]) n h | None => never_added (es ++ [e]) n end).
  { intros e0 Ne. destruct (dget str_eqb (after es) n) as [h|].
    - destruct IH as (Nh & b & l & -> & Ll). split; [exact Nh|]. exists b, (l ++ [e0]). split; [rewrite <- app_assoc; reflexivity|]. intros h' I. apply in_app_or in I. destruct I as [I|[I|[]]]; [exact (Ll h' I)|exact (Ne h' I)].
    - intros h I. apply in_app_or in I. destruct I as [I|[I|[]]]; [exact (IH h I)|exact (Ne h I)]. }
  destruct e as [h|m h]; cbn [happens]; [|apply K; intros h' Q; discriminate Q].
  destruct (named_dec h) as [(m & Nm)|No].
  - rewrite (add_found _ h m n Nm). destruct (str_eqb n m) eqn:E.
    + apply str_eqb_eq in E. subst m. split; [exact Nm|]. exists es, []. split; [reflexivity|intros h' []].
    + apply K. intros h' Q Nh. injection Q as <-. pose proof (named_one h n m Nh Nm) as W. apply str_eqb_eq in W. congruence.
  - rewrite (add_other _ h No). cbn [fst]. apply K. intros h' Q. injection Q as <-. apply No.
Qed.
Lemma last_one_added : forall es n h h', last_added es n h -> last_added es n h' -> h = h'.
Proof.
  intros es n h h' (N & b & l & E & Ll) (N' & b' & l' & E' & Ll'). rewrite E in E'. clear E. revert b' E'. induction b as [|x b IH]; intros [|x' b'] E'; cbn in E'.
  - injection E' as -> _. reflexivity.
  - injection E' as <- ->. exfalso. apply (Ll h'); [apply in_or_app; right; left; reflexivity|exact N'].
  - injection E' as -> <-. exfalso. apply (Ll' h); [apply in_or_app; right; left; reflexivity|exact N].
  - injection E' as _ E'. exact (IH b' E').
Qed.
Lemma registry_history : forall accepts es name args,
  (forall h, last_added es name h -> dispatch accepts (after es) name args = if accepts h args then Ran h else BadArgs h) /\
  (never_added es name -> dispatch accepts (after es) name args = NoSuch) /\
  ((exists h, last_added es name h) \/ never_added es name) /\
  (forall h, snd (register (after es) h) = Ok tt <-> exists n, named h n) /\
  (forall h, snd (register (after es) h) <> Ok tt -> register (after es) h = (after es, Exc AssertionError)).
Proof.
  intros accepts es name args. pose proof (found_last es name) as F. unfold dispatch. split; [|split; [|split; [|split]]].
  - intros h Lh. destruct (dget str_eqb (after es) name) as [h'|].
    + rewrite (last_one_added es name h h' Lh F). rewrite (named_callable h' name (proj1 F)). reflexivity.
    + exfalso. destruct Lh as (N & b & l & -> & _). apply (F h); [apply in_or_app; right; left; reflexivity|exact N].
  - intros Nv. destruct (dget str_eqb (after es) name) as [h'|]; [|reflexivity]. exfalso. destruct F as (N & b & l & -> & _). apply (Nv h'); [apply in_or_app; right; left; reflexivity|exact N].
  - destruct (dget str_eqb (after es) name) as [h'|]; [left; exists h'; exact F|right; exact F].
  - intros h. destruct (named_dec h) as [(m & Nm)|No].
    + split; [intros _; exists m; exact Nm|]. intros _. destruct h as [f i|f [|] i|c i]; try reflexivity; cbn in Nm; destruct Nm; try discriminate; contradiction.
    + rewrite (add_other _ h No). split; [discriminate|intros (m & Nm); exfalso; exact (No m Nm)].
  - intros h Q. destruct (named_dec h) as [(m & Nm)|No]; [|exact (add_other _ h No)]. exfalso. apply Q. destruct h as [f i|f [|] i|c i]; try reflexivity; cbn in Nm; destruct Nm; try discriminate; contradiction.
Qed.
(* a macro cannot be removed *)
Lemma stays_registered : exists h name, named h name /\ snd (unregister (after [Add h]) name h) = Exc AttributeError /\
  forall accepts args, dispatch accepts (after [Add h; Remove name h]) name args = if accepts h args then Ran h else BadArgs h.
Proof. exists (Function (L "Clock") 1), (L "Clock"). split; [reflexivity|]. split; [reflexivity|]. intros. reflexivity. Qed.
(* the macros of the package are those of the model of pages *)
Lemma import_known : forall now urlencode analysis name,
  (WikiModel.macro now urlencode analysis name = None <-> dget str_eqb at_import name = None) /\
  (dget str_eqb at_import name = None <-> ~ In name (map (fun n => L n) known)).
Proof.
  intros now urlencode analysis name. assert (A : at_import = map (fun n => (L n, Function (L n) 0)) known) by reflexivity. rewrite A. clear A. unfold WikiModel.macro, known.
  assert (E : forall a b, str_eqb a b = true <-> a = b) by (intros; apply str_eqb_eq).
  cbn [map In dget].
  repeat match goal with |- context [str_eqb name ?w] => let Q := fresh "Q" in destruct (str_eqb name w) eqn:Q; [apply E in Q; split; split; [discriminate|discriminate|discriminate|intros H; exfalso; apply H; rewrite Q; tauto]|] end.
  split; [split; intros _; reflexivity|]. split; [intros _ H|reflexivity].
  repeat match type of H with _ \/ _ => destruct H as [H|H] end; try contradiction; subst name; match goal with Q : str_eqb ?a ?a = false |- _ => rewrite (proj2 (E a a) eq_refl) in Q; discriminate end.
Qed.
