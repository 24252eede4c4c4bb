(** The witness solvers CalculateWitness and CalculateSparseWitness. *)
Require Import ZArith Znumtheory NArith Bool Lia Ascii String List.
Require Import Verif.Cong Verif.FqModel Verif.FqProofs Verif.Pocklington Verif.PolyModel Verif.AvlModel Verif.AvlSpec Verif.AvlProofs.
Require Import Verif.SparseModel Verif.FactorModel Verif.R1csModel Verif.R1csSpec.
Require Import Verif.WitnessModel Verif.WitnessSpec Verif.WitnessProofs Verif.PropsExpr.
Import ListNotations.
Open Scope Z_scope.

(** ** C30 *)
(** A vector returned by the dense solver satisfies every row. *)
Theorem C30_sound : forall q gx m sp rs rnd inp w, prime q ->
  calculate_witness q gx m sp rs rnd inp = Ok w ->
  (forall j, In j (bit_indices sp) -> first_coef j (vectors rs) = 0 \/ first_coef j (vectors rs) = 1) ->
  Forall (row_ok q gx w) rs.
Proof.
  intros q gx m sp rs rnd inp w Hq H HB. unfold calculate_witness in H.
  apply bind_ok in H. destruct H as [[s bm] [E H]]. apply lift_ok in E. apply bind_ok in H. destruct H as [s' [H Ew]]. injection Ew as <-.
  destruct (solve_rows_sound q Hq gx bm rs s s' H) as [_ S].
  - intros j Hj _. apply HB. now apply (start_bits _ _ _ _ _ _ E).
  - apply S, agrees_self.
Qed.
Print Assumptions C30_sound.

(** The four-wire system  f = x * 1,  y = (2 * bit 0 of f) * 1. *)
Definition bit_imap : imap := [("1", 0); ("x", 1); ("f", 2); ("b", 3); ("y", 4)]%string%nat.
Definition bit_rows : list (row (list Z)) :=
  [Row [0; 1; 0; 0; 0] [1; 0; 0; 0; 0] [0; 0; 0; 0; 0] [0; 0; 1; 0; 0];
   Row [0; 0; 0; 2; 0] [1; 0; 0; 0; 0] [0; 0; 0; 0; 0] [0; 0; 0; 0; 1]].
(** Without the condition on bits the result may violate a row: the value of the bit takes the
    place of its coefficient. *)
Theorem C30_bit_coefficient_refuted : exists q gx m sp rs rnd inp w, prime q /\
  calculate_witness q gx m sp rs rnd inp = Ok w /\ ~ Forall (row_ok q gx w) rs.
Proof.
  exists 101, (fun _ => 0), bit_imap, [("f", [3%nat])]%string, bit_rows, 0, [("x", 5)]%string.
  eexists. split; [apply prime_101|]. split; [vm_compute; reflexivity|].
  intros F. inversion F as [|? ? _ F2]; subst. inversion F2 as [|? ? R _]; subst.
  unfold row_ok in R. cbn in R. apply cong_mod_iff in R; [vm_compute in R; discriminate|lia].
Qed.
Print Assumptions C30_bit_coefficient_refuted.

Example C30_case :
  let rs := [Row [0; 1; 0; 0; 0] [1; 0; 0; 0; 0] [0; 0; 0; 0; 0] [0; 0; 1; 0; 0];
             Row [0; 0; 0; 1; 0] [0; 7; 0; 2; 0] [0; 0; 0; 0; 0] [0; 0; 0; 0; 1]] in
  calculate_witness 101 (fun _ => 0) bit_imap [("f", [3%nat])]%string rs 0 [("x", 5)]%string = Ok [1; 5; 5; 1; 37] /\
  first_coef 3 (vectors rs) = 1 /\ prime 101.
Proof. cbv zeta. split; [vm_compute; reflexivity|]. split; [reflexivity|apply prime_101]. Qed.

(** ** C31 *)
(** A vector returned by the sparse solver satisfies every row. *)
Theorem C31_sound : forall q gx m sp rs rnd inp w, prime q -> (forall k, 0 <= k -> gx k = gx (k mod q)) ->
  Forall (fun r => wf (rl r) /\ wf (rr r) /\ wf (re r) /\ wf (ro r)) rs ->
  calculate_sparse_witness q gx m sp rs rnd inp = Ok w ->
  Forall (srow_ok q gx w) rs.
Proof.
  intros q gx m sp rs rnd inp w Hq HP HW H. unfold calculate_sparse_witness in H.
  apply bind_ok in H. destruct H as [[s bm] [E H]]. apply bind_ok in H. destruct H as [s' [H Ew]]. injection Ew as <-.
  destruct (ssolve_rows_sound q Hq gx HP bm rs s s' H HW) as [_ S]. apply S, agrees_self.
Qed.
Print Assumptions C31_sound.

(** z * 1 = x + y *)
Definition sum_imap : imap := [("1", 0); ("x", 1); ("y", 2); ("z", 3)]%string%nat.
Definition sum_row : row (list Z) := Row [0; 0; 0; 1] [1; 0; 0; 0] [0; 0; 0; 0] [0; 1; 1; 0].
Definition sum_srow : option (row tree) :=
  match from_array (rl sum_row), from_array (rr sum_row), from_array (re sum_row), from_array (ro sum_row) with
  | Some l, Some r, Some e, Some o => Some (Row l r e o)
  | _, _, _, _ => None
  end.
(** Inputs and a row for which the dense solver returns a solution and the sparse solver an error,
    at the order of the curve. *)
Theorem C31_complete_refuted : exists gx m r sr inp w,
  (forall k, 0 <= k -> gx k = gx (k mod Order)) /\
  from_array (rl r) = Some (rl sr) /\ from_array (rr r) = Some (rr sr) /\
  from_array (re r) = Some (re sr) /\ from_array (ro r) = Some (ro sr) /\
  calculate_witness Order gx m [] [r] 0 inp = Ok w /\ Forall (fun v => 0 <= v < Order) w /\
  row_ok Order gx w r /\ srow_ok Order gx w sr /\
  calculate_sparse_witness Order gx m [] [sr] 0 inp = Err.
Proof.
  destruct sum_srow as [sr|] eqn:E; [|vm_compute in E; discriminate]. vm_compute in E. injection E as E.
  exists (fun _ => 0), sum_imap, sum_row, sr, [("x", Order - 1); ("y", Order - 1); ("z", Order - 2)]%string,
    [1; Order - 1; Order - 1; Order - 2].
  split; [auto|]. rewrite <- E. do 5 (split; [vm_compute; reflexivity|]).
  split; [repeat constructor; vm_compute; discriminate|]. split; [|split].
  - exists (-1). vm_compute. reflexivity.
  - exists (-1). vm_compute. reflexivity.
  - vm_compute. reflexivity.
Qed.
Print Assumptions C31_complete_refuted.

Example C31_case : exists sr, sum_srow = Some sr /\ wf (rl sr) /\ wf (rr sr) /\ wf (re sr) /\ wf (ro sr) /\
  calculate_sparse_witness 101 (fun _ => 0) sum_imap [] [sr] 0 [("x", 5); ("y", 7)]%string = Ok [1; 5; 7; 12].
Proof.
  assert (HF : forall l t, from_array l = Some t -> wf t).
  { intros l t E. destruct (from_array_spec l) as [t' [E' R]]. rewrite E in E'. injection E' as <-. apply R. }
  destruct sum_srow as [sr|] eqn:E; [|vm_compute in E; discriminate]. exists sr. split; [auto|].
  vm_compute in E. injection E as <-.
  split; [apply (HF (rl sum_row)); vm_compute; reflexivity|]. split; [apply (HF (rr sum_row)); vm_compute; reflexivity|].
  split; [apply (HF (re sum_row)); vm_compute; reflexivity|]. split; [apply (HF (ro sum_row)); vm_compute; reflexivity|].
  vm_compute. reflexivity.
Qed.

(** ** C32 *)
(** The supplied names are known wires other than the constant and the bits, at distinct indices. *)
Definition inputs_ok (m : imap) (sp : smap) (inp : list input_arg) : Prop :=
  NoDup (map (fun e => im_idx m (fst e)) inp) /\ ~ In O (bit_indices sp) /\
  forall x v, In (x, v) inp -> im_idx m x <> O /\ ~ In (im_idx m x) (bit_indices sp).
Lemma solver_start m sp rnd inp s bm s' : inputs_ok m sp inp -> start m sp rnd inp = Some (s, bm) -> ext s s' ->
  nth 0 (wit s') 0 = 1 /\ forall x v, In (x, v) inp -> nth (im_idx m x) (wit s') 0 = v.
Proof.
  intros [ND [H0 HI]] E [_ [_ X]]. destruct (start_inputs _ _ _ _ _ _ E ND) as [B0 [W0 I]]; auto.
  - intros x Hx. apply in_map_iff in Hx. destruct Hx as [[y v] [<- Hy]]. apply (HI y v Hy).
  - split.
    + destruct (X _ B0) as [_ E0]. unfold W in *. congruence.
    + intros x v Hx. destruct (I x v Hx) as [P Q]. destruct (X _ P) as [_ E0]. unfold W in *. congruence.
Qed.

(** Constant and inputs keep their values, whatever the rows. *)
Theorem C32_dense : forall q gx m sp rs rnd inp w, inputs_ok m sp inp ->
  calculate_witness q gx m sp rs rnd inp = Ok w ->
  List.length w = List.length m /\ nth 0 w 0 = 1 /\ forall x v, In (x, v) inp -> nth (im_idx m x) w 0 = v.
Proof.
  intros q gx m sp rs rnd inp w HI H. unfold calculate_witness in H.
  apply bind_ok in H. destruct H as [[s bm] [E H]]. apply lift_ok in E. apply bind_ok in H. destruct H as [s' [H Ew]]. injection Ew as <-.
  assert (X := solve_rows_ext q gx bm rs s s' H). split; [|eapply solver_start; eauto].
  destruct X as [-> _]. apply (start_len _ _ _ _ _ _ E).
Qed.
Print Assumptions C32_dense.

Theorem C32_sparse : forall q gx m sp rs rnd inp w, inputs_ok m sp inp ->
  calculate_sparse_witness q gx m sp rs rnd inp = Ok w ->
  List.length w = List.length m /\ nth 0 w 0 = 1 /\ forall x v, In (x, v) inp -> nth (im_idx m x) w 0 = v.
Proof.
  intros q gx m sp rs rnd inp w HI H. unfold calculate_sparse_witness in H.
  apply bind_ok in H. destruct H as [[s bm] [E H]]. apply lift_ok in E. apply bind_ok in H. destruct H as [s' [H Ew]]. injection Ew as <-.
  assert (X := ssolve_rows_ext q gx bm rs s s' H). split; [|eapply solver_start; eauto].
  destruct X as [-> _]. apply (start_len _ _ _ _ _ _ E).
Qed.
Print Assumptions C32_sparse.

(** An input whose name is unknown replaces the constant one; no error is reported and the result
    satisfies the rows with the wrong constant. *)
Theorem C32_unknown_name_refuted : exists q gx m rs inp w, prime q /\
  im_get m "typo" = None /\ In ("typo"%string, 9) inp /\ inputs_ok m [] (filter (fun e => negb (String.eqb (fst e) "typo")) inp) /\
  calculate_witness q gx m [] rs 0 inp = Ok w /\ nth 0 w 0 = 9.
Proof.
  exists 101, (fun _ => 0), sum_imap, [sum_row], [("x", 5); ("typo", 9); ("y", 4)]%string. eexists.
  split; [apply prime_101|]. split; [reflexivity|]. split; [right; now left|]. split.
  - split; [|split; [easy|]].
    + cbn. repeat constructor; cbn; intuition discriminate.
    + intros x v H. cbn in H. destruct H as [E|[E|[]]]; injection E as <- <-; cbn; split; auto; discriminate.
  - split; vm_compute; reflexivity.
Qed.
Print Assumptions C32_unknown_name_refuted.

(** CombineInputs succeeds iff there are as many values as names, and then gives the k-th name the k-th value. *)
Theorem C32_combine : forall names vals,
  ((exists inp, combine_inputs names vals = Some inp) <-> List.length names = List.length vals) /\
  forall inp, combine_inputs names vals = Some inp -> List.length inp = List.length names /\
    forall k x a, nth_error inp k = Some (x, a) <-> nth_error names k = Some x /\ nth_error vals k = Some a.
Proof.
  intros names vals. unfold combine_inputs. destruct (Nat.eqb_spec (List.length names) (List.length vals)) as [E|N].
  - split; [split; eauto|]. intros inp [= <-]. split; [eapply eq_trans; [apply combine_length|lia]|].
    revert vals E. induction names as [|y names IH]; intros [|b vals] E k x a; try discriminate; destruct k; cbn; try (split; [discriminate|intros []; discriminate]).
    + split; [now intros [= -> ->]|]. now intros [[= ->] [= ->]].
    + apply IH. now injection E.
  - split; [split; [intros [inp H]; discriminate|easy]|discriminate].
Qed.
Print Assumptions C32_combine.
Example C32_combine_case : combine_inputs ["x"; "y"]%string [5; 7] = Some [("x", 5); ("y", 7)]%string /\ combine_inputs ["x"]%string [5; 7] = None.
Proof. split; reflexivity. Qed.

Example C32_case : inputs_ok sum_imap [] [("x", 5); ("y", 7)]%string /\
  calculate_witness 101 (fun _ => 0) sum_imap [] [sum_row] 0 [("x", 5); ("y", 7)]%string = Ok [1; 5; 7; 12].
Proof.
  split; [|vm_compute; reflexivity]. split; [|split; [easy|]].
  - cbn. repeat constructor; cbn; intuition discriminate.
  - intros x v H. cbn in H. destruct H as [E|[E|[]]]; injection E as <- <-; cbn; split; auto; discriminate.
Qed.
