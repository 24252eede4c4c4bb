(** Shape of generated systems: all vectors have the length of the index map, and programs without
    scalarBaseMultiply leave all exponent vectors zero. *)
Require Import ZArith Znumtheory NArith Lia Bool Ascii String List Permutation.
Require Import Verif.Cong Verif.FqModel Verif.FactorModel Verif.FactorSpec Verif.FactorProofs Verif.ExprModel Verif.AvlModel Verif.PolyModel
  Verif.R1csModel Verif.R1csSpec Verif.WitnessProofs Verif.SnarkModel Verif.SnarkSpec
  Verif.ParserModel Verif.CircuitModel Verif.LangSpec Verif.LangHeap Verif.LangSym Verif.LangField.
Import ListNotations.
Local Open Scope string_scope.
Local Open Scope list_scope.
Local Open Scope nat_scope.

Definition sized (n : nat) (r : row (list Z)) : Prop := List.length (rl r) = n /\ List.length (rr r) = n /\ List.length (re r) = n /\ List.length (ro r) = n.
Lemma zeros_len n : List.length (zeros n) = n.
Proof. apply repeat_length. Qed.
Lemma set_len l i x l' : array_set l i x = Some l' -> List.length l' = List.length l.
Proof. intros H. apply array_set_some in H. apply H. Qed.
Lemma insert_len m : forall f a v, insert_values m a f = Some v -> List.length v = List.length a.
Proof.
  induction f as [|x f IH]; intros a v E; cbn [insert_values] in E; [now injection E as <-|].
  destruct (insert_value m a x) as [a'|] eqn:E1; [|discriminate]. rewrite (IH _ _ E). unfold insert_value in E1.
  destruct (is_number x); [eapply set_len; eauto|]. destruct (im_get m (ident (ftok x))); [eapply set_len; eauto|discriminate].
Qed.
Lemma vec_len m n f v : vec m n f = Some v -> List.length v = n.
Proof. intros H. apply insert_len in H. now rewrite zeros_len in H. Qed.
Lemma unit_len n i v : unit_at n i = Some v -> List.length v = n.
Proof. intros H. apply set_len in H. now rewrite zeros_len in H. Qed.
Lemma mk_row_inv l r e o w : mk_row l r e o = Some w -> l = Some (rl w) /\ r = Some (rr w) /\ e = Some (re w) /\ o = Some (ro w).
Proof. unfold mk_row. destruct l, r, e, o; try discriminate. intros [= <-]. auto. Qed.
Lemma gate_row_sized m n g r : gate_row m n g = Some r -> sized n r.
Proof.
  assert (Z : forall v, Some (zeros n) = Some v -> List.length v = n) by (intros v [= <-]; apply zeros_len).
  assert (V := vec_len m n). assert (U := unit_len n).
  unfold gate_row. destruct (swap_sides g) as [l' r']. destruct (gtyp g); try discriminate; intros H; apply mk_row_inv in H; destruct H as (A & B & C & D); unfold sized;
    (split; [|split; [eauto|split; eauto]]); eauto.
  destruct (array_set (zeros n) 0 (-1)) as [a|] eqn:E; [|discriminate]. apply set_len in E, A. now rewrite A, E, zeros_len.
Qed.
Lemma all_some_forall {A B} (f : A -> option B) (P : B -> Prop) : (forall x y, f x = Some y -> P y) -> forall l r, R1csModel.all_some f l = Some r -> Forall P r.
Proof.
  intros H. induction l as [|x l IH]; intros r E; cbn in E; [injection E as <-; constructor|].
  destruct (f x) as [y|] eqn:Ex; [|discriminate]. destruct (R1csModel.all_some f l) as [r'|]; [|discriminate]. injection E as <-. constructor; eauto.
Qed.
Lemma rand_row_sized m n r : rand_row m n = Some r -> sized n r.
Proof. intros H. apply mk_row_inv in H. destruct H as (A & B & C & D). repeat split; eapply vec_len; eauto. Qed.
Lemma system_sized pubs ins gs rz s : gates_to_r1cs pubs ins gs rz = Some s -> well_sized s.
Proof.
  unfold gates_to_r1cs, with_rand. destruct (build_index pubs ins gs rz) as [[m sp]|]; [|discriminate].
  destruct (R1csModel.all_some (gate_row m (List.length m)) gs) as [rs|] eqn:E; [|discriminate]. apply all_some_forall with (P := sized (List.length m)) in E; [|apply gate_row_sized].
  destruct rz.
  - destruct (rand_row m (List.length m)) as [r|] eqn:R; [|discriminate]. intros [= <-]. unfold well_sized. cbn [rows index_map]. apply Forall_app. split; [exact E|].
    constructor; [|constructor]. eapply rand_row_sized; eauto.
  - intros [= <-]. exact E.
Qed.

Definition plain_gate (g : gate) : Prop := gtyp g <> GBase.
Lemma system_free pubs ins gs s : Forall plain_gate gs -> gates_to_r1cs pubs ins gs false = Some s -> exponent_free s.
Proof.
  intros HP. unfold gates_to_r1cs, with_rand. destruct (build_index pubs ins gs false) as [[m sp]|]; [|discriminate].
  destruct (R1csModel.all_some (gate_row m (List.length m)) gs) as [rs|] eqn:E; [|discriminate]. intros [= <-]. unfold exponent_free. cbn [rows].
  revert rs E. induction HP as [|g gs Hg _ IH]; intros rs E; cbn in E; [injection E as <-; constructor|].
  destruct (gate_row m (List.length m) g) as [r|] eqn:Er; [|discriminate]. destruct (R1csModel.all_some (gate_row m (List.length m)) gs) as [rs'|]; [|discriminate]. injection E as <-.
  constructor; auto. unfold gate_row in Er. destruct (swap_sides g) as [l' r']. unfold plain_gate in Hg.
  assert (Z : re r = zeros (List.length m)). { destruct (gtyp g); try discriminate; try (now destruct Hg); apply mk_row_inv in Er; destruct Er as (_ & _ & C & _); now injection C. }
  rewrite Z. apply Forall_forall. intros v Hv. now apply repeat_spec in Hv.
Qed.

(** Programs that do not call scalarBaseMultiply. *)
Fixpoint exp_free (e : exp) : bool :=
  match e with
  | Num _ | Var _ | Idx _ _ => true
  | Bin _ a b => exp_free a && exp_free b
  | Base _ => false
  | Call _ args => forallb exp_free args
  end.
Fixpoint stmt_free (t : stmt) : bool :=
  match t with
  | Decl _ e | Assign _ e | Put _ _ e | Return e => exp_free e
  | Equal a b => exp_free a && exp_free b
  | Do _ args => forallb exp_free args
  | For c _ e body => exp_free e && forallb stmt_free body
  | If c body => forallb stmt_free body
  | Public _ | Array _ => true
  end.
Definition prog_free (fs : defs) : bool := forallb (fun d => forallb stmt_free (fbody (snd d))) fs.

Section P.
Variable sort : factors -> factors.
Variable hash : string -> Z.
Variable q : Z.
Variable fs : defs.
Notation sym := (sym sort hash q).
Hypothesis HF : prog_free fs = true.
Definition plain_rec (s : collector * list gate) : Prop := Forall plain_gate (gates (fst s)).
Lemma free_fun f ps body : find_at f fs = Some (Fun ps body) -> forallb stmt_free body = true.
Proof.
  revert HF. unfold prog_free. induction fs as [|[g d] l IH]; [discriminate|]. cbn [forallb snd find_at]. intros H. apply andb_true_iff in H. destruct H as [H1 H2].
  destruct (String.eqb f g); [|auto]. intros [= ->]. exact H1.
Qed.
Lemma free_all (P : collector * list gate -> Prop) :
  (forall o s a b v s', dop sym o s a b v s' -> P s -> P s') -> (forall s a b s', dequal sym s a b s' -> P s -> P s') ->
  (forall m s e v s', ev sym fs m s e v s' -> exp_free e = true -> P s -> P s') /\ (forall m s es vs s', evs sym fs m s es vs s' -> forallb exp_free es = true -> P s -> P s') /\
  (forall s f vs v s', call sym fs s f vs v s' -> P s -> P s') /\ (forall m s t m1 v b s', xs sym fs m s t m1 v b s' -> stmt_free t = true -> P s -> P s') /\
  (forall m s ts m1 v s', xb sym fs m s ts m1 v s' -> forallb stmt_free ts = true -> P s -> P s') /\ (forall m c b, test sym fs m c b -> True) /\ (forall m es l, idxs sym fs m es l -> True).
Proof.
  intros A B. apply sem_ind; intros; cbn [exp_free stmt_free forallb] in *;
  repeat match goal with H : _ && _ = true |- _ => apply andb_true_iff in H; destruct H end; try discriminate; eauto 6 using free_fun.
  match goal with H : _ -> P _ -> P ?x |- P ?x => apply H; [rewrite ?andb_true_iff; auto|]; eauto end.
Qed.
Lemma collect_plain c g fin c' i : collect sort hash c g fin = Some (c', i) -> gtyp g <> GBase -> (forall x, gtyp (fin x) = gtyp x) -> Forall plain_gate (gates c) -> Forall plain_gate (gates c').
Proof.
  unfold collect. intros E Hg Hf H. destruct (with_id sort hash g) as [g'|] eqn:W; [|discriminate]. destruct (contains c (gid g')); injection E as <- _; auto.
  cbn [gates]. apply Forall_app. split; auto. constructor; [|constructor]. unfold plain_gate. rewrite Hf.
  unfold with_id in W. destruct (gid g); [|now injection W as <-]. unfold set_id in W. destruct (prefix16 _); [|discriminate]. now injection W as <-.
Qed.
Lemma op_plain o s a b v s' : dop sym o s a b v s' -> plain_rec s -> plain_rec s'.
Proof.
  cbn [dop LangSym.sym]. unfold compile_op_tr. destruct (compile_op sort hash q (fst s) o a b) as [[c f]|] eqn:E; [|discriminate]. intros H Hh. unfold plain_rec in *.
  assert (c = fst s') as ->.
  { revert H. destruct (_ && _); [destruct (extract_constant sort q a b) as [[[? ?] ?]|]; [|discriminate]; unfold traced; destruct (with_id _ _ _); [|discriminate]; now intros [= <- _ _]|].
    destruct (_ && _); [|now intros [= <- _ _]]. destruct (factor_signature sort a) as [[? ?]|]; [|discriminate]. destruct (factor_signature sort b) as [[? ?]|]; [|discriminate].
    unfold traced; destruct (with_id _ _ _); [|discriminate]; now intros [= <- _ _]. }
  revert E. unfold compile_op. destruct (String.eqb o "*").
  - destruct (_ || _); [destruct (mul_factors q a b); [intros [= <- _]; auto|discriminate]|].
    unfold compile_mul. destruct (extract_constant sort q a b) as [[[? ?] ?]|]; [|discriminate]. destruct (collect _ _ _ _ _) as [[c i]|] eqn:EC; [|discriminate].
    intros [= <- _]. eapply collect_plain; eauto. discriminate.
  - destruct (String.eqb o "/").
    + destruct (is_single_number b); [destruct (invert_factors q b) as [j|]; [|discriminate]; destruct (mul_factors q a j); [intros [= <- _]; auto|discriminate]|].
      unfold compile_div. destruct (factor_signature sort a) as [[? ?]|]; [|discriminate]. destruct (factor_signature sort b) as [[? ?]|]; [|discriminate].
      destruct (fdiv _ _ _); [|discriminate]. destruct (collect _ _ _ _ _) as [[c i]|] eqn:EC; [|discriminate]. intros [= <- _]. eapply collect_plain; eauto. discriminate.
    + destruct (String.eqb o "+"); [intros [= <- _]; auto|]. destruct (String.eqb o "-"); [intros [= <- _]; auto|discriminate].
Qed.
Lemma main_plain m s ts v s' : mb sym fs m s ts v s' -> forallb stmt_free ts = true -> plain_rec s -> plain_rec s'.
Proof.
  destruct (free_all plain_rec) as (_ & _ & _ & X & _).
  - apply op_plain.
  - intros s1 a b s2 [E _]. unfold compile_equal in E. destruct (collect _ _ _ _ _) as [[c i]|] eqn:EC; [|discriminate]. injection E as ->. eapply collect_plain; eauto. discriminate.
  - assert (Dn : forall s v s', ddone sym s v s' -> plain_rec s -> plain_rec s').
    { intros s1 u s2 E Hh. destruct (done_inv _ _ _ _ _ _ E) as [[[E1 _] _]|(f & i & -> & Es & Eg & EC & Et)]; [unfold plain_rec in *; now rewrite E1 in *|]. eapply collect_plain; [exact EC|discriminate|reflexivity|exact Hh]. }
    induction 1; auto; cbn [forallb]; intros Hf Hh; apply andb_true_iff in Hf; destruct Hf; eauto.
Qed.
End P.
