(** The chroma that decodes to greys. *)
From Coq Require Import ZArith List Bool.
Import ListNotations.
From Verif Require Import Fmt.
Open Scope Z_scope.

(** 128, except in the full range spaces, whose decoding constants are centred on 127. *)
Definition neutral (cs : color_space) : Z :=
  match cs with Bt601FR | Bt709FR => 127 | _ => 128 end.
