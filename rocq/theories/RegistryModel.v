(* doc/macro.py: the macros that are known *)
From Verif Require Import Py Dict.

(* what can be handed to register: a function, an instance of a subclass of Processor, or anything else; the
   number tells different ones with the same name apart *)
Inductive handler : Type :=
| Function (func_name : str) (id : nat)
| ProcessorOf (class_name : str) (has_call : bool) (id : nat)
| OtherObject (has_call : bool) (id : nat).
(* the builtin callable *)
Definition callable (h : handler) : bool := match h with Function _ _ => true | ProcessorOf _ c _ | OtherObject c _ => c end.
Definition registry : Type := list (str * handler).   (* _handlers, 26 *)
(* _get_name, 28-34 *)
Definition get_name (h : handler) : res str :=
  match h with ProcessorOf n _ _ => Ok n | Function n _ => Ok n | OtherObject _ _ => Exc AssertionError end.
(* register, 36-38 *)
Definition register (r : registry) (h : handler) : registry * res unit :=
  if negb (callable h) then (r, Exc AssertionError)
  else match get_name h with Ok n => (dset str_eqb r n h, Ok tt) | Exc e => (r, Exc e) end.
(* unregister, 40-41: a dictionary has no method remove. The arguments of a call are evaluated after the method is
   looked up, so the name of the handler does not matter *)
Definition unregister (r : registry) (name : str) (h : handler) : registry * res unit := (r, Exc AttributeError).
(* dispatch, 48-56: which handler is run, whether it refuses its arguments, or that there is none.
   [accepts] is what the handler returns *)
Inductive outcome : Type := Ran (h : handler) | BadArgs (h : handler) | NoSuch.
Definition dispatch (accepts : handler -> option str -> bool) (r : registry) (name : str) (args : option str) : outcome :=
  match dget str_eqb r name with
  | Some h => if callable h then (if accepts h args then Ran h else BadArgs h) else NoSuch
  | None => NoSuch
  end.
(* the calls of register in the module, 81, 91, 180, 215, 240 *)
Definition at_import : registry := fold_left (fun r n => fst (register r (Function (L n) 0))) ["BR"; "Timestamp"; "TableOfContent"; "Position"; "Analysis"]%string [].
