(* Property C158: the registry of macros *)
From Verif Require Import Py Dict WikiModel MacroSpec RegistryModel RegistrySpec RegistryProofs.
Open Scope string_scope.
Open Scope list_scope.

(* C158: what is expected is NoSuch *)
Theorem C158_refuted : exists h name, named h name /\ snd (unregister (after [Add h]) name h) = Exc AttributeError /\
  forall accepts args, dispatch accepts (after [Add h; Remove name h]) name args = if accepts h args then Ran h else BadArgs h.
Proof. exact stays_registered. Qed.
Print Assumptions C158_refuted.

(* C158 *)
Theorem C158_history_partial : forall accepts es name args,
  (forall h, last_added es name h -> dispatch accepts (after es) name args = if accepts h args then Ran h else BadArgs h) /\
  (never_added es name -> dispatch accepts (after es) name args = NoSuch) /\
  ((exists h, last_added es name h) \/ never_added es name) /\
  (forall h, snd (register (after es) h) = Ok tt <-> exists n, named h n) /\
  (forall h, snd (register (after es) h) <> Ok tt -> register (after es) h = (after es, Exc AssertionError)).
Proof. exact registry_history. Qed.
Print Assumptions C158_history_partial.
Example C158_case :
  let es := [Add (Function (L "Clock") 1); Remove (L "Clock") (Function (L "Clock") 1); Add (ProcessorOf (L "Clock") true 2); Add (OtherObject true 3); Add (ProcessorOf (L "Map") false 4)] in
  last_added es (L "Clock") (ProcessorOf (L "Clock") true 2) /\ never_added es (L "Map") /\ dispatch (fun _ _ => true) (after es) (L "Clock") None = Ran (ProcessorOf (L "Clock") true 2).
Proof.
  split; [split; [split; reflexivity|]|split; [|reflexivity]].
  - exists [Add (Function (L "Clock") 1); Remove (L "Clock") (Function (L "Clock") 1)], [Add (OtherObject true 3); Add (ProcessorOf (L "Map") false 4)]. split; [reflexivity|].
    intros h' [E|[E|[]]]; injection E as <-; cbn [named]; intuition discriminate.
  - intros h I. cbn in I. repeat destruct I as [I|I]; try discriminate; try (injection I as <-; cbn [named]; intuition discriminate). destruct I.
Qed.

(* C158: the macros of the package, and those of the model of pages *)
Theorem C158_at_import : forall now urlencode analysis name,
  (WikiModel.macro now urlencode analysis name = None <-> dget str_eqb at_import name = None) /\
  (dget str_eqb at_import name = None <-> ~ In name (map (fun n => L n) known)).
Proof. exact import_known. Qed.
Print Assumptions C158_at_import.
Example C158_import_case : List.length at_import = 5%nat /\ dget str_eqb at_import (L "Position") = Some (Function (L "Position") 0) /\ dget str_eqb at_import (L "Boad") = None.
Proof. vm_compute. auto. Qed.
