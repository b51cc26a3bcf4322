(* Specification for C159: two texts with the same symbols of base64 in the same order, whatever stands between them *)
From Verif Require Import Py GnuSpec.

Definition same_symbols (s t : str) : Prop := filter is_b64 s = filter is_b64 t.
