(** What is assumed about the groups, and the vocabulary of the theorems on proofs. *)
Require Import ZArith NArith Bool String List.
Require Import Verif.Cong Verif.FqModel Verif.FqSpec Verif.PolyModel Verif.R1csModel Verif.SnarkModel.
Import ListNotations.
Open Scope Z_scope.

(** Element of GT with exponent a. *)
Definition gT (G : groups) (a : Z) : GT G := pair G (base1 G a) (base2 G 1).

(** Groups of order q with a bilinear, non-degenerate pairing, written in exponents.  Scalars are
    non-negative.  In-place addition is only assumed to be right when the two points differ or
    the first is neutral. *)
Record lawful (q : Z) (G : groups) : Prop := Lawful {
  law_base1 : forall a b, 0 <= a -> 0 <= b -> a ==[q] b -> base1 G a = base1 G b;
  law_base2 : forall a b, 0 <= a -> 0 <= b -> a ==[q] b -> base2 G a = base2 G b;
  law_smul1 : forall a k, 0 <= a -> 0 <= k -> smul1 G (base1 G a) k = base1 G (a * k);
  law_smul2 : forall a k, 0 <= a -> 0 <= k -> smul2 G (base2 G a) k = base2 G (a * k);
  law_acc1 : forall a b, 0 <= a -> 0 <= b -> (base1 G a = base1 G b -> base1 G a = base1 G 0) ->
    acc1 G (base1 G a) (base1 G b) = base1 G (a + b);
  law_acc2 : forall a b, 0 <= a -> 0 <= b -> (base2 G a = base2 G b -> base2 G a = base2 G 0) ->
    acc2 G (base2 G a) (base2 G b) = base2 G (a + b);
  law_add1 : forall a b, 0 <= a -> 0 <= b -> add1 G (base1 G a) (base1 G b) = base1 G (a + b);
  law_add2 : forall a b, 0 <= a -> 0 <= b -> add2 G (base2 G a) (base2 G b) = base2 G (a + b);
  law_pair : forall a b, 0 <= a -> 0 <= b -> pair G (base1 G a) (base2 G b) = gT G (a * b);
  law_addT : forall a b, 0 <= a -> 0 <= b -> addT G (gT G a) (gT G b) = gT G (a + b);
  law_smulT : forall a k, 0 <= a -> 0 <= k -> smulT G (gT G a) k = gT G (a * k);
  law_marshal : forall a b, 0 <= a -> 0 <= b -> marshalT G (gT G a) = marshalT G (gT G b) -> a ==[q] b;
  law_x : forall a, 0 <= a -> 0 <= xcoord G (base1 G a);
  law_x0 : xcoord G (base1 G 0) = 0 }.

(** Exponents themselves: the standard instance, with any function X on the exponents. *)
Definition exponents (q : Z) (X : Z -> Z) : groups :=
  {| G1 := Z; G2 := Z; GT := Z;
     base1 := fun k => k mod q; smul1 := fun a k => (a * k) mod q; acc1 := fun a b => (a + b) mod q;
     add1 := fun a b => (a + b) mod q; xcoord := X;
     base2 := fun k => k mod q; smul2 := fun a k => (a * k) mod q; acc2 := fun a b => (a + b) mod q;
     add2 := fun a b => (a + b) mod q;
     smulT := fun a k => (a * k) mod q; addT := fun a b => (a + b) mod q;
     pair := fun a b => (a * b) mod q; marshalT := fun a => [a] |}.

(** [ok s t] holds for each step s + t while the sum is formed. *)
Fixpoint sum_if {A} (ok : A -> A -> Prop) (acc : A -> A -> A) (s : A) (ts : list A) : Prop :=
  match ts with
  | [] => True
  | t :: ts' => ok s t /\ sum_if ok acc (acc s t) ts'
  end.
Definition sum_all {A} (ok : A -> A -> Prop) (acc : A -> A -> A) (ts : list A) : Prop :=
  match ts with [] => True | t :: ts' => sum_if ok acc t ts' end.
(** No element other than the neutral one is added in place to itself. *)
Definition apart {A} (z s t : A) : Prop := s = t -> s = z.
Definition safe1 (G : groups) : list (G1 G) -> Prop := sum_all (apart (base1 G 0)) (acc1 G).
Definition safe2 (G : groups) : list (G2 G) -> Prop := sum_all (apart (base2 G 0)) (acc2 G).

(** All steps of all sums that GenerateProofs forms are [ok1] in G1 and [ok2] in G2. *)
Definition prover_sums (q : Z) (G : groups) (ok1 : G1 G -> G1 G -> Prop) (ok2 : G2 G -> G2 G -> Prop) (pub : nat) (k : pk G) (w Px : list Z) : Prop :=
  (forall ts, smuls (smul1 G) (lx_ex G k) w = Some ts -> sum_all ok1 (acc1 G) (ts ++ [alpha1 G k])) /\
  (forall ts, smuls (smul2 G) (rx G k) w = Some ts -> sum_all ok2 (acc2 G) ts) /\
  (forall ts, smuls (smul1 G) (ex G k) w = Some ts -> sum_all ok1 (acc1 G) ts) /\
  (forall Qx r, pdiv q Px (domain G k) = Some (Qx, r) ->
     (forall ts, smuls (smul1 G) (powers_domain_delta G k) Qx = Some ts -> sum_all ok1 (acc1 G) ts) /\
     (forall ts qd, smuls (smul1 G) (rleo_delta G k) (skipn pub w) = Some ts ->
        msm (smul1 G) (acc1 G) (powers_domain_delta G k) Qx = Some qd -> sum_all ok1 (acc1 G) (ts ++ [qd]))).
(** And of the sum that VerifyProof forms. *)
Definition verifier_sums (G : groups) (ok1 : G1 G -> G1 G -> Prop) (k : pk G) (signals : list Z) : Prop :=
  forall ts, smuls (smul1 G) (rleo_gamma G k) signals = Some ts -> sum_all ok1 (acc1 G) ts.
Definition prover_safe (q : Z) (G : groups) : nat -> pk G -> list Z -> list Z -> Prop :=
  prover_sums q G (apart (base1 G 0)) (apart (base2 G 0)).
Definition verifier_safe (G : groups) : pk G -> list Z -> Prop := verifier_sums G (apart (base1 G 0)).

(** Every row has one coefficient per wire. *)
Definition well_sized (s : er1cs (list Z)) : Prop :=
  Forall (fun r => List.length (rl r) = List.length (index_map s) /\ List.length (rr r) = List.length (index_map s) /\
                   List.length (re r) = List.length (index_map s) /\ List.length (ro r) = List.length (index_map s)) (rows s).

(** No row has a base multiplication. *)
Definition exponent_free (s : er1cs (list Z)) : Prop := Forall (fun r => Forall (fun v => v = 0) (re r)) (rows s).

(** p is the polynomial of degree < len(data) through the points (i, data[i]). *)
Definition interpolates (q : Z) (data p : list Z) : Prop :=
  (List.length p <= List.length data)%nat /\
  forall i, (i < List.length data)%nat -> poly_at p (Z.of_nat i) ==[q] nth i data 0.

(** A forger who only has the public key: the honest sums, with fresh receivers, for an assignment
    w and a polynomial Qx of its choice, and PiF = g^f. *)
Definition forge (G : groups) (pub : nat) (k : pk G) (w Qx : list Z) (f : Z) : option (proof G) :=
  match msm (smul1 G) (add1 G) (lx_ex G k) w, msm (smul2 G) (add2 G) (rx G k) w,
        msm (smul1 G) (add1 G) (rleo_delta G k) (skipn pub w), msm (smul1 G) (add1 G) (powers_domain_delta G k) Qx with
  | Some a, Some b, Some c, Some d => Some (Proof G (add1 G a (alpha1 G k)) b (add1 G c d) (base1 G f))
  | _, _, _, _ => None
  end.
