(* Histories of the registry of macros. *)
From Verif Require Import Py RegistryModel.

Inductive event : Type := Add (h : handler) | Remove (name : str) (h : handler).
Definition happens (r : registry) (e : event) : registry := match e with Add h => fst (register r h) | Remove n h => fst (unregister r n h) end.
Definition after (es : list event) : registry := fold_left happens es [].
(* a handler that can be registered, and its name *)
Definition named (h : handler) (n : str) : Prop := match h with Function m _ => m = n | ProcessorOf m c _ => m = n /\ c = true | OtherObject _ _ => False end.
(* the last handler added under a name *)
Definition last_added (es : list event) (n : str) (h : handler) : Prop :=
  named h n /\ exists before later, es = before ++ Add h :: later /\ forall h', In (Add h') later -> ~ named h' n.
Definition never_added (es : list event) (n : str) : Prop := forall h, In (Add h) es -> ~ named h n.
