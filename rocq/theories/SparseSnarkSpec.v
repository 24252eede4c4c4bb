(** Vocabulary of the theorems on sparse systems and sparse proofs. *)
Require Import ZArith NArith Bool String List.
Require Import Verif.Cong Verif.FqModel Verif.FqSpec Verif.AvlModel Verif.AvlProofs Verif.SparseModel Verif.SparseSpec Verif.SparseProofs.
Require Import Verif.R1csModel Verif.R1csSpec Verif.SnarkModel Verif.SnarkSpec.
Import ListNotations.
Open Scope Z_scope.

(** Every row consists of trees the operations build, without keys beyond the wires. *)
Definition sparse_sized (s : er1cs tree) : Prop :=
  Forall (fun r => Forall (fun t => wf t /\ below (tc t) (List.length (index_map s))) [rl r; rr r; re r; ro r]) (rows s).
(** No row has a base multiplication. *)
Definition sparse_exponent_free (s : er1cs tree) : Prop := Forall (fun r => re r = Leaf) (rows s).

(** The values that one side of the rows takes. *)
Definition row_values (f : row tree -> tree) (w : list Z) (s : er1cs tree) : list Z :=
  map (fun r => edot (ascending (f r)) w) (rows s).
(** A list continued with zeros up to n entries. *)
Definition padded (n : nat) (l : list Z) : list Z := l ++ repeat 0 (n - List.length l).

(** The multiples of the keys at the positions of the entries. *)
Fixpoint entry_terms {A} (mul : A -> Z -> A) (keys : list A) (es : list (N * Z)) : option (list A) :=
  match es with
  | [] => Some []
  | (k, v) :: es' => match nth_error keys (N.to_nat k), entry_terms mul keys es' with
                     | Some p, Some ts => Some (mul p v :: ts)
                     | _, _ => None
                     end
  end.
(** The condition ok1 or ok2 holds of every step of the sums that GenerateProof_Sparse forms. *)
Definition sparse_prover_sums (q : Z) (G : groups) (ok1 : G1 G -> G1 G -> Prop) (ok2 : G2 G -> G2 G -> Prop)
    (pub : nat) (k : pk G) (w : list Z) (Px : tree) : Prop :=
  (forall ts, smuls (smul1 G) (lx_ex G k) w = Some ts -> sum_all ok1 (acc1 G) (ts ++ [alpha1 G k])) /\
  (forall ts, smuls (smul2 G) (rx G k) w = Some ts -> sum_all ok2 (acc2 G) ts) /\
  (forall ts, smuls (smul1 G) (ex G k) w = Some ts -> sum_all ok1 (acc1 G) ts) /\
  (forall fuel dom Qx r, from_array (domain G k) = Some dom -> divide_sparse q fuel Px dom = Ret (Qx, r) ->
     (forall ts, entry_terms (smul1 G) (powers_domain_delta G k) (ascending Qx) = Some ts -> sum_all ok1 (acc1 G) (base1 G 0 :: ts)) /\
     (forall ts qd, smuls (smul1 G) (rleo_delta G k) (skipn pub w) = Some ts ->
        sparse_msm G (powers_domain_delta G k) (ascending Qx) (base1 G 0) = Some qd -> sum_all ok1 (acc1 G) (ts ++ [qd]))).
(** No sum that GenerateProof_Sparse forms adds an element other than the neutral one in place to
    itself. *)
Definition sparse_prover_safe (q : Z) (G : groups) : nat -> pk G -> list Z -> tree -> Prop :=
  sparse_prover_sums q G (apart (base1 G 0)) (apart (base2 G 0)).
