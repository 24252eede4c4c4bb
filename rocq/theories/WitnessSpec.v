(** Bits and the order in which the dense solver meets their coefficients. *)
Require Import ZArith Bool Ascii String List.
Require Import Verif.R1csModel.
Import ListNotations.
Open Scope Z_scope.

(** The vectors of a system in the order L, R, E, O of each row. *)
Definition vectors {A} (rs : list (row A)) : list A := flat_map (fun r => [rl r; rr r; re r; ro r]) rs.
(** The first non-zero coefficient of wire [j], 0 if there is none. *)
Fixpoint first_coef (j : nat) (vs : list (list Z)) : Z :=
  match vs with
  | [] => 0
  | v :: vs' => if nth j v 0 =? 0 then first_coef j vs' else nth j v 0
  end.
(** Indices of the wires that are bits of a split wire. *)
Definition bit_indices (sp : smap) : list nat := flat_map snd sp.
