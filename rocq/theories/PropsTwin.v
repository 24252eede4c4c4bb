(** C95: when CalculateSparseWitness returns what CalculateWitness returns. *)
Require Import ZArith Znumtheory NArith Lia Bool Permutation Ascii String List.
Require Import Verif.Cong Verif.FqModel Verif.FqSpec Verif.FqProofs Verif.Pocklington Verif.AvlModel Verif.AvlSpec Verif.AvlProofs Verif.PolyModel Verif.PolyProofs Verif.InterpProofs.
Require Import Verif.SparseModel Verif.SparseSpec Verif.SparseProofs Verif.SparseProofs2.
Require Import Verif.CurveModel Verif.CurveSpec Verif.PairModel Verif.PairProofs Verif.SnarkModel Verif.SnarkSpec Verif.SnarkProofs2 Verif.SnarkProofs3 Verif.BnGroups Verif.PropsSnark Verif.PropsBn.
Require Import Verif.SparseSnarkSpec Verif.PropsSparseSnark Verif.SparseSim Verif.PropsSparseBn.
Require Import Verif.FactorModel Verif.FactorSpec Verif.FactorProofs Verif.ExprModel Verif.ExprSpec Verif.ExprProofs Verif.ExprProofs2.
Require Import Verif.R1csModel Verif.R1csSpec Verif.R1csProofs Verif.EndProofs.
Require Verif.WitnessProofs.
Require Import Verif.WitnessModel Verif.WitnessSpec Verif.SolveProofs Verif.SolveRange Verif.TwinProofs.
Require Import Verif.ParserModel Verif.CircuitModel Verif.LangSpec Verif.LangHeap Verif.LangSym Verif.LangRun Verif.LangBuild Verif.LangField Verif.LangGood.
Require Import Verif.PropsFactor Verif.PropsExpr Verif.PropsR1cs Verif.PropsEnd Verif.PropsSolve Verif.PropsLang Verif.GoodSystem Verif.PropsProgram Verif.SystemShape Verif.PropsChain Verif.PropsSparseChain.
Import ListNotations.
Local Open Scope string_scope.
Local Open Scope list_scope.
Local Open Scope Z_scope.

(** ** Rows of generated systems *)
(** A coefficient is zero modulo [q] only if it is zero. *)
Definition coef_plain (q : Z) (f : factor) : Prop := mult f mod q = 0 -> mult f = 0.
Definition gate_plain (q : Z) (g : gate) : Prop := Forall (coef_plain q) (gleft g ++ gright g ++ gexp g ++ gout g).
Definition plain_side (q : Z) (v : list Z) : Prop := forall i, nth i v 0 mod q = 0 -> nth i v 0 = 0.
Definition plain_tree (q : Z) (t : tree) : Prop := wf t /\ forall k, -q < AvlProofs.lookup t k < q.
Definition row_all {A} (P : A -> Prop) (r : row A) : Prop := P (rl r) /\ P (rr r) /\ P (re r) /\ P (ro r).
Section Rows.
Variable q : Z.
Hypothesis Hq : 1 < q.
Variable m : imap.
Lemma plain_zeros n : plain_side q (zeros n).
Proof using Type. intros i _. destruct (Nat.ltb_spec i n). - unfold zeros. now rewrite nth_repeat. - apply nth_overflow. unfold zeros. now rewrite repeat_length. Qed.
Lemma plain_set l i x l' : plain_side q l -> (x mod q = 0 -> x = 0) -> array_set l i x = Some l' -> plain_side q l'.
Proof using Type.
  intros P X E j. apply WitnessProofs.array_set_some in E. destruct E as (_ & _ & E). rewrite E. destruct (Nat.eqb j i); auto.
Qed.
Lemma one_plain : 1 mod q = 0 -> 1 = 0.
Proof using Hq. rewrite Z.mod_small by lia. auto. Qed.
Lemma minus_plain : -1 mod q = 0 -> -1 = 0.
Proof using Hq. intros H. apply Z.mod_divide in H; [|lia]. destruct H as [k H]. exfalso. destruct (Z.lt_ge_cases k 0); nia. Qed.
Lemma plain_values : forall f v v', Forall (coef_plain q) f -> plain_side q v -> insert_values m v f = Some v' -> plain_side q v'.
Proof using Type.
  induction f as [|x f IH]; intros v v' F P E; cbn [insert_values] in E; [now injection E as <-|]. apply Forall_cons_iff in F. destruct F as [F1 F2].
  destruct (insert_value m v x) as [v1|] eqn:E1; [|discriminate]. apply (IH v1); auto. unfold insert_value in E1.
  destruct (is_number x); [eapply plain_set; eauto|]. destruct (im_get m (ident (ftok x))) as [i|]; [eapply plain_set; eauto|discriminate].
Qed.
Lemma swap_plain g l r : gate_plain q g -> swap_sides g = (l, r) -> Forall (coef_plain q) l /\ Forall (coef_plain q) r.
Proof using Type.
  unfold gate_plain, swap_sides. rewrite !Forall_app. intros (A & B & _). destruct (Nat.ltb _ _); intros [= <- <-]; auto.
Qed.
Lemma plain_row n g r : gate_plain q g -> gate_row m n g = Some r -> row_all (plain_side q) r.
Proof using Hq.
  intros P. assert (Z : forall v, Some (zeros n) = Some v -> plain_side q v) by (intros v [= <-]; apply plain_zeros).
  assert (V : forall f v, Forall (coef_plain q) f -> vec m n f = Some v -> plain_side q v) by (intros f v F; apply plain_values; auto using plain_zeros).
  assert (U : forall i v, unit_at n i = Some v -> plain_side q v) by (intros i v; apply plain_set; [apply plain_zeros|exact one_plain]).
  unfold gate_row. destruct (swap_sides g) as [l' r'] eqn:SW. destruct (swap_plain _ _ _ P SW) as [PL PR]. unfold gate_plain in P. rewrite !Forall_app in P. destruct P as (_ & _ & PE & PO).
  destruct (gtyp g); try discriminate; intros H; apply mk_row_inv in H; destruct H as (A & B & C & D); unfold row_all;
    (split; [|split; [eauto|split; eauto]]); eauto.
  destruct (array_set (zeros n) 0 (-1)) as [a|] eqn:E; [|discriminate].
  exact (plain_set _ _ _ _ (plain_set _ _ _ _ (plain_zeros n) minus_plain E) one_plain A).
Qed.

Lemma tree_leaf : plain_tree q Leaf.
Proof using Hq. split; [apply wf_leaf|]. intros k. rewrite lookup_leaf. lia. Qed.
Lemma tree_set t k x t' : plain_tree q t -> tree_put t k x (add_cb q) = Some t' -> plain_tree q t'.
Proof using Hq.
  intros [W B] E. destruct (put_lookup t k x (add_cb q) _ W eq_refl) as [t1 [E1 [W' L]]]. rewrite E in E1. injection E1 as <-. split; [exact W'|].
  intros j. rewrite L. destruct (N.eqb j k); [|apply B]. assert (X := Z.mod_pos_bound (AvlProofs.lookup t k + x) q ltac:(lia)). unfold fadd. lia.
Qed.
Lemma tree_insert t k x t' : plain_tree q t -> -q < x < q -> insert t k x = Some t' -> plain_tree q t'.
Proof using Type.
  intros [W B] X E. destruct (AvlProofs.insert_spec t (AvlProofs.lookup t) k x (wf_rep t W)) as [t1 [E1 [W' L]]]. rewrite E in E1. injection E1 as <-. split; [exact W'|].
  intros j. rewrite L. unfold AvlSpec.aset. destruct (N.eqb j k); [exact X|apply B].
Qed.
Lemma tree_values : forall f t t', plain_tree q t -> sinsert_values q m t f = Some t' -> plain_tree q t'.
Proof using Hq.
  induction f as [|x f IH]; intros t t' F E; cbn [sinsert_values] in E; [now injection E as <-|].
  destruct (sinsert_value q m t x) as [t1|] eqn:E1; [|discriminate]. apply (IH t1); [|exact E]. unfold sinsert_value in E1.
  destruct (is_number x); [exact (tree_set _ _ _ _ F E1)|]. destruct (im_get m (ident (ftok x))) as [i|]; [|discriminate]. exact (tree_set _ _ _ _ F E1).
Qed.
Lemma tree_row g r : sgate_row q m g = Some r -> row_all (plain_tree q) r.
Proof using Hq.
  assert (L : forall t, Some Leaf = Some t -> plain_tree q t) by (intros t [= <-]; exact tree_leaf).
  assert (V : forall f t, svec q m f = Some t -> plain_tree q t) by (intros f t; apply tree_values, tree_leaf).
  assert (U : forall i t, sunit_at i = Some t -> plain_tree q t) by (intros i t; apply tree_insert; [exact tree_leaf|lia]).
  unfold sgate_row. destruct (swap_sides g) as [l' r']. destruct (gtyp g); try discriminate; intros H; apply mk_srow_inv in H; destruct H as (A & B & C & D); unfold row_all;
    (split; [|split; [eauto|split; eauto]]); eauto.
  destruct (insert Leaf 0 (-1)) as [a|] eqn:E; [|discriminate].
  apply (tree_insert a _ 1 _) in A; [exact A| |lia]. apply (tree_insert Leaf 0%N (-1) a tree_leaf); [lia|exact E].
Qed.
Lemma tree_rand r : srand_row q m = Some r -> row_all (plain_tree q) r.
Proof using Hq.
  assert (V : forall f t, svec q m f = Some t -> plain_tree q t) by (intros f t; apply tree_values, tree_leaf).
  intros H; apply mk_srow_inv in H; destruct H as (A & B & C & D). repeat split; eapply V; eauto.
Qed.
Lemma plain_rand n r : rand_row m n = Some r -> row_all (plain_side q) r.
Proof using Hq.
  assert (V : forall x v, vec m n (wire x 1) = Some v -> plain_side q v).
  { intros x v; apply plain_values; [|apply plain_zeros]. constructor; [exact one_plain|constructor]. }
  intros H; apply mk_row_inv in H; destruct H as (A & B & C & D). repeat split; eapply V; eauto.
Qed.
End Rows.

Lemma plain_alike q v t : plain_side q v -> plain_tree q t -> 0 < q ->
  (forall i, nth i v 0 ==[q] AvlProofs.lookup t (N.of_nat i)) -> same_side q v t.
Proof.
  intros P [W B] Hq H. split; [exact W|]. intros k. specialize (H (N.to_nat k)). rewrite N2Nat.id in H. split; [now apply cong_sym|].
  specialize (B k). specialize (P (N.to_nat k)). apply cong_mod_iff in H; [|lia]. split; intros E.
  - apply P. rewrite H, E. apply Z.mod_0_l. lia.
  - rewrite E, Z.mod_0_l in H by lia. symmetry in H. apply Z.mod_divide in H; [|lia]. destruct H as [c H]. assert (c = 0) by nia. subst c. lia.
Qed.
Lemma all_some_in {A B} (f : A -> option B) (Q : A -> Prop) (P : B -> Prop) : (forall x y, Q x -> f x = Some y -> P y) ->
  forall l r, Forall Q l -> R1csModel.all_some f l = Some r -> Forall P r.
Proof.
  intros H. induction l as [|x l IH]; intros r F E; cbn in E; [injection E as <-; constructor|]. apply Forall_cons_iff in F. destruct F as [F1 F2].
  destruct (f x) as [y|] eqn:Ex; [|discriminate]. destruct (R1csModel.all_some f l) as [r'|]; [|discriminate]. injection E as <-. constructor; eauto.
Qed.
Lemma dense_plain q pubs ins gs rz d : 1 < q -> Forall (gate_plain q) gs -> gates_to_r1cs pubs ins gs rz = Some d -> Forall (row_all (plain_side q)) (rows d).
Proof.
  intros Hq F. unfold gates_to_r1cs, with_rand. destruct (build_index pubs ins gs rz) as [[m sp]|]; [|discriminate].
  destruct (R1csModel.all_some (gate_row m (List.length m)) gs) as [rs|] eqn:E; [|discriminate].
  apply (all_some_in _ (gate_plain q) (row_all (plain_side q))) in E; [|intros x y; apply plain_row; exact Hq|exact F]. destruct rz.
  - destruct (rand_row m (List.length m)) as [r|] eqn:R; [|discriminate]. intros [= <-]. cbn [rows]. apply Forall_app. split; [exact E|]. constructor; [|constructor]. eapply plain_rand; eauto.
  - intros [= <-]. exact E.
Qed.
Lemma sparse_plain q pubs ins gs rz s : 1 < q -> gates_to_sparse_r1cs q pubs ins gs rz = Some s -> Forall (row_all (plain_tree q)) (rows s).
Proof.
  intros Hq. unfold gates_to_sparse_r1cs, with_rand. destruct (build_index pubs ins gs rz) as [[m sp]|]; [|discriminate].
  destruct (R1csModel.all_some (sgate_row q m) gs) as [rs|] eqn:E; [|discriminate].
  apply all_some_forall with (P := row_all (plain_tree q)) in E; [|intros x y; apply tree_row; exact Hq]. destruct rz.
  - destruct (srand_row q m) as [r|] eqn:R; [|discriminate]. intros [= <-]. cbn [rows]. apply Forall_app. split; [exact E|]. constructor; [|constructor]. eapply tree_rand; eauto.
  - intros [= <-]. exact E.
Qed.
Lemma generated_same q pubs ins gs rz d s : 1 < q -> names_ok pubs ins gs rz -> Forall (gate_shape (wire_names pubs ins gs rz)) gs ->
  Forall gate_distinct gs -> Forall (numbers_apart (wire_names pubs ins gs rz)) gs -> Forall (gate_plain q) gs ->
  gates_to_r1cs pubs ins gs rz = Some d -> gates_to_sparse_r1cs q pubs ins gs rz = Some s ->
  index_map s = index_map d /\ split_map s = split_map d /\ Forall2 (same_row q) (rows d) (rows s) /\ Forall (row_width (List.length (index_map d))) (rows d).
Proof.
  intros Hq Hn Hs Hd Ha HP ED ES. assert (X := C29_agree q pubs ins gs rz ltac:(lia) Hn Hs Hd Ha). rewrite ED, ES in X. destruct X as (X1 & X2 & X).
  split; [auto|]. split; [auto|]. assert (PD := dense_plain q _ _ _ _ _ Hq HP ED). assert (PS := sparse_plain q _ _ _ _ _ Hq ES). assert (SZ := system_sized _ _ _ _ _ ED).
  split.
  - clear -X PD PS Hq. induction X as [|a b l l' H X IH]; [constructor|]. apply Forall_cons_iff in PD, PS. destruct PD as [(A1 & A2 & A3 & A4) PD], PS as [(B1 & B2 & B3 & B4) PS].
    constructor; [|auto]. split; [|split; [|split]]; (apply plain_alike; auto; [lia|]; intros i; apply H).
  - eapply Forall_impl; [|exact SZ]. intros r H. exact H.
Qed.

(** ** C95 *)
(** [prime q] and any two systems with the same entries up to reduction: the sparse solver returns [W] exactly if the dense one
    does, [W] satisfies the rows, and on no row do the reduced terms of the output side add up to [q] or more. *)
Theorem C95_systems : forall q gx m sp ds ss rnd inp, prime q -> (forall k, 0 <= k -> gx k = gx (k mod q)) ->
  Forall2 (same_row q) ds ss -> Forall (row_width (List.length m)) ds -> forall W,
  calculate_sparse_witness q gx m sp ss rnd inp = Ok W <->
  calculate_witness q gx m sp ds rnd inp = Ok W /\ Forall (row_ok q gx W) ds /\ Forall (out_fits q W) ds.
Proof. intros q gx m sp ds ss rnd inp Hq HX F L W. exact (witness_same q gx m sp rnd inp ds ss Hq HX F L W). Qed.
Print Assumptions C95_systems.

(** Where the output sides have one entry and bits enter with coefficient 1 first, the solvers return the same. *)
Theorem C95_single : forall q gx m sp ds ss rnd inp, prime q -> (forall k, 0 <= k -> gx k = gx (k mod q)) ->
  Forall2 (same_row q) ds ss -> Forall (row_width (List.length m)) ds ->
  (forall j, In j (bit_indices sp) -> first_coef j (vectors ds) = 0 \/ first_coef j (vectors ds) = 1) ->
  Forall (fun d => forall i j, nth i (ro d) 0 <> 0 -> nth j (ro d) 0 <> 0 -> i = j) ds -> forall W,
  calculate_sparse_witness q gx m sp ss rnd inp = Ok W <-> calculate_witness q gx m sp ds rnd inp = Ok W.
Proof.
  intros q gx m sp ds ss rnd inp Hq HX F L HB H1 W. rewrite (C95_systems q gx m sp ds ss rnd inp Hq HX F L W). split; [tauto|]. intros HW. split; [exact HW|].
  split; [exact (PropsWitness.C30_sound q gx m sp ds rnd inp W Hq HW HB)|]. eapply Forall_impl; [|exact H1]. intros d H. apply single_fits; [destruct Hq; lia|exact H].
Qed.
Print Assumptions C95_single.

(** The two systems made from one list of gates. *)
Theorem C95_generated : forall q gx pubs ins gs rz d s rnd inp, prime q -> (forall k, 0 <= k -> gx k = gx (k mod q)) ->
  names_ok pubs ins gs rz -> Forall (gate_shape (wire_names pubs ins gs rz)) gs -> Forall gate_distinct gs ->
  Forall (numbers_apart (wire_names pubs ins gs rz)) gs -> Forall (gate_plain q) gs ->
  gates_to_r1cs pubs ins gs rz = Some d -> gates_to_sparse_r1cs q pubs ins gs rz = Some s -> forall W,
  calculate_sparse_witness q gx (index_map s) (split_map s) (rows s) rnd inp = Ok W <->
  calculate_witness q gx (index_map d) (split_map d) (rows d) rnd inp = Ok W /\ Forall (row_ok q gx W) (rows d) /\ Forall (out_fits q W) (rows d).
Proof.
  intros q gx pubs ins gs rz d s rnd inp Hq HX Hn Hs Hd Ha HP ED ES W. assert (H1 : 1 < q) by (destruct Hq; lia).
  destruct (generated_same q pubs ins gs rz d s H1 Hn Hs Hd Ha HP ED ES) as (-> & -> & F & L). exact (C95_systems q gx _ _ _ _ rnd inp Hq HX F L W).
Qed.
Print Assumptions C95_generated.

Definition coefs_plain (q : Z) (st : state) : Prop := Forall (gate_plain q) (gates (scoll st)).
(** The sparse solver of a program: the dense solver's witness, if the output sides fit, and no witness otherwise. *)
Theorem C95_program : forall sort hash q gx fs ins p r st d s, (forall l, Permutation (sort l) l) -> prime q -> gx 0 ==[q] 0 ->
  (forall k, 0 <= k -> gx k = gx (k mod q)) ->
  compiles sort hash q fs ins p r st -> publics_ok p -> numbers_plain p ins st -> coefs_plain q st ->
  gates_to_r1cs (ppublic p) ins (gates (scoll st)) false = Some d -> gates_to_sparse_r1cs q (ppublic p) ins (gates (scoll st)) false = Some s ->
  forall rnd inp W, supplied (ppublic p) ins inp ->
  calculate_sparse_witness q gx (index_map s) (split_map s) (rows s) rnd inp = Ok W <->
  calculate_witness q gx (index_map d) (split_map d) (rows d) rnd inp = Ok W /\ Forall (out_fits q W) (rows d).
Proof.
  intros sort hash q gx fs ins p r st d s Hs Hq G0 HX HC HP NP CP ED ES rnd inp W SI.
  destruct (prog_nice sort Hs hash q Hq (fun _ => 0) fs ins p r st HC HP) as (HG & _).
  assert (D2 := prog_one _ _ _ _ _ _ _ _ HC). assert (D3 := prog_declared _ _ _ _ _ _ _ _ HC). assert (D4 := prog_apart _ _ _ _ _ _ _ _ HC HP).
  rewrite (C95_generated q gx (ppublic p) ins (gates (scoll st)) false d s rnd inp Hq HX (schain_names sort hash q fs ins p r st HC HP)
    (sys_shape _ _ _ _ _ HG) (sys_distinct _ _ _ HG) NP CP ED ES W).
  split; [tauto|]. intros [HW F]. split; [exact HW|]. split; [|exact F].
  exact (proj1 (sys_solved q Hq gx (fun x => In x ins) (scoll st) (strace st) (ppublic p) ins HG (proj1 HP) D2 D3 D4 d ED rnd inp W SI HW)).
Qed.
Print Assumptions C95_program.

(** On the inputs of a run the sparse solver returns a witness exactly if the equalities the program asks for hold and the
    dense solver's witness makes the output sides fit. *)
Theorem C95_run : forall sort hash q gx fs ins p r st d s, (forall l, Permutation (sort l) l) -> prime q -> gx 0 ==[q] 0 ->
  (forall k, 0 <= k -> gx k = gx (k mod q)) ->
  compiles sort hash q fs ins p r st -> publics_ok p -> numbers_plain p ins st -> coefs_plain q st ->
  gates_to_r1cs (ppublic p) ins (gates (scoll st)) false = Some d -> gates_to_sparse_r1cs q (ppublic p) ins (gates (scoll st)) false = Some s ->
  forall w v asked rnd inp, program_means q gx fs w v asked -> supplied (ppublic p) ins inp -> (forall x a, In (x, a) inp -> a = w x) ->
  (Forall (fun d => forall i j, nth i (ro d) 0 <> 0 -> nth j (ro d) 0 <> 0 -> i = j) (rows d) ->
   (exists W, calculate_sparse_witness q gx (index_map s) (split_map s) (rows s) rnd inp = Ok W) <-> Forall (fun e => fst e ==[q] snd e) asked) /\
  ((exists W, calculate_sparse_witness q gx (index_map s) (split_map s) (rows s) rnd inp = Ok W) <->
   Forall (fun e => fst e ==[q] snd e) asked /\
   exists W, calculate_witness q gx (index_map d) (split_map d) (rows d) rnd inp = Ok W /\ Forall (out_fits q W) (rows d)).
Proof.
  intros sort hash q gx fs ins p r st d s Hs Hq G0 HX HC HP NP CP ED ES w v asked rnd inp M SI IV.
  destruct (C81_solver sort hash q gx fs ins p r st d Hs Hq G0 HC HP ED w v asked rnd inp M SI IV) as [A _].
  assert (T := fun W => C95_program sort hash q gx fs ins p r st d s Hs Hq G0 HX HC HP NP CP ED ES rnd inp W SI). split.
  - intros H1. rewrite <- A. split; intros [W HW]; exists W; [now apply T|]. apply T. split; [exact HW|]. eapply Forall_impl; [|exact H1].
    intros e H. apply single_fits; [destruct Hq; lia|exact H].
  - rewrite <- A. split.
    + intros [W HW]. apply T in HW. split; [exists W; apply HW|]. exists W. exact HW.
    + intros [_ [W HW]]. exists W. now apply T.
Qed.
Print Assumptions C95_run.

(** The equality of two sums. *)
Definition C95_text := "
func main(x,y,z,u){
	public{x}
	equal(x+y,z+u)
	return x*y
}
".
Definition C95_defs : defs :=
  [("main", Fun ["x"; "y"; "z"; "u"]
     [Public "x"; Equal (Bin "+" (Var "x") (Var "y")) (Bin "+" (Var "z") (Var "u")); Return (Bin "*" (Var "x") (Var "y"))])].
Lemma C95_encoded : enc_prog C95_defs (tree_of 1000 C95_text).
Proof.
  remember (tree_of 1000 C95_text) as cs eqn:E. vm_compute in E. subst cs. unfold C95_defs.
  assert (En : forall t s, ends t (Con (Tok t s) [])) by (split; reflexivity).
  apply (enc_fun "main" ["x"; "y"; "z"; "u"] _ _ [_; _; _] _ _); [|apply En|apply enc_none].
  apply (enc_cons _ _ [_] _); [apply enc_public|]. apply (enc_cons _ _ [_] _); [apply enc_equal; enc_exp|].
  apply (enc_cons _ _ [_] _); [apply enc_return; enc_exp|apply enc_nil].
Qed.
Lemma C95_ok : prog_ok C95_defs.
Proof.
  split; [repeat (constructor; [apply absent; reflexivity|]); constructor|].
  constructor; [|constructor]; unfold fun_ok; cbn [fst snd fparams fbody]; heading; cbn [block_ok stmt_ok exp_ok app]; unfold new_ok, name_ok, cond_ok; cbn [cleft cright exp_ok]; scope.
Qed.
Definition C95_inp (a b c e : Z) : list (string * Z) := [("x", a); ("y", b); ("z", c); ("u", e)].
Definition C95_w (a b c e : Z) (x : string) : Z :=
  if String.eqb x "x" then a else if String.eqb x "y" then b else if String.eqb x "z" then c else if String.eqb x "u" then e else 0.
Lemma C95_means gx a b c e : program_means 101 gx C95_defs (C95_w a b c e) (Some (Wire (a * b))) [(a + b, c + e)]%Z.
Proof.
  eexists _, _. split; [reflexivity|]. eapply mb_cons; [apply xs_public|reflexivity|].
  change (map (fun x => (x, Wire (C95_w a b c e x))) ["x"; "y"; "z"; "u"]) with [("x", Wire a); ("y", Wire b); ("z", Wire c); ("u", Wire e)].
  eapply mb_cons; [eapply xs_equal; [| |reflexivity]|reflexivity|].
  - eapply ev_bin; [field_ev|field_ev|]. split; [apply value_left with (z := (a + b)%Z), result_add, cong_refl|reflexivity].
  - eapply ev_bin; [field_ev|field_ev|]. split; [apply value_left with (z := (c + e)%Z), result_add, cong_refl|reflexivity].
  - eapply mb_return; [|reflexivity]. apply xs_return. eapply ev_bin; [field_ev|field_ev|]. split; [apply value_left with (z := (a * b)%Z), result_mul, cong_refl|reflexivity].
Qed.
Definition coefsb (q : Z) (st : state) : bool :=
  forallb (fun g => forallb (fun f => negb (mult f mod q =? 0) || (mult f =? 0)) (gleft g ++ gright g ++ gexp g ++ gout g)) (gates (scoll st)).
Lemma coefsb_ok q st : coefsb q st = true -> coefs_plain q st.
Proof.
  unfold coefsb, coefs_plain. rewrite forallb_forall. intros H. apply Forall_forall. intros g Hg. apply Forall_forall. intros f Hf E.
  specialize (H g Hg). rewrite forallb_forall in H. specialize (H f Hf). rewrite E in H. cbn in H. now apply Z.eqb_eq.
Qed.
(** Both solvers on the program, and whether the hypotheses hold. *)
Definition both (gx : Z -> Z) (o : option (program * ret * state)) (ins : list string) (inp : list (string * Z)) : option (list string * solved (list Z) * solved (list Z)) :=
  match o with
  | Some (p, _, st) =>
      if plainb p ins st && coefsb 101 st then
        match gates_to_r1cs (ppublic p) ins (gates (scoll st)) false, gates_to_sparse_r1cs 101 (ppublic p) ins (gates (scoll st)) false with
        | Some d, Some s => Some (ppublic p, calculate_witness 101 gx (index_map d) (split_map d) (rows d) 0 inp, calculate_sparse_witness 101 gx (index_map s) (split_map s) (rows s) 0 inp)
        | _, _ => None
        end
      else None
  | None => None
  end.
Lemma both_inv gx p r st ins inp pub a b : both gx (Some (p, r, st)) ins inp = Some (pub, a, b) -> ppublic p = pub /\ numbers_plain p ins st /\ coefs_plain 101 st /\
  exists d s, gates_to_r1cs (ppublic p) ins (gates (scoll st)) false = Some d /\ gates_to_sparse_r1cs 101 (ppublic p) ins (gates (scoll st)) false = Some s /\
    calculate_witness 101 gx (index_map d) (split_map d) (rows d) 0 inp = a /\ calculate_sparse_witness 101 gx (index_map s) (split_map s) (rows s) 0 inp = b.
Proof.
  unfold both. destruct (plainb p ins st) eqn:N; [|discriminate]. destruct (coefsb 101 st) eqn:C; [|discriminate]. cbn [andb].
  destruct (gates_to_r1cs (ppublic p) ins (gates (scoll st)) false) as [d|]; [|discriminate].
  destruct (gates_to_sparse_r1cs 101 (ppublic p) ins (gates (scoll st)) false) as [s|]; [|discriminate]. intros [= <- <- <-].
  split; [reflexivity|]. split; [now apply plainb_ok|]. split; [now apply coefsb_ok|]. eauto 8.
Qed.
Lemma C95_checked : checked (run_all sort_factors toy_hash 101 1000 (tree_of 1000 C95_text)) 2 = true.
Proof. vm_compute. reflexivity. Qed.
Lemma C95_both : both (fun _ => 0) (run_all sort_factors toy_hash 101 1000 (tree_of 1000 C95_text)) ["x"; "y"; "z"; "u"] (C95_inp 10 20 12 18) =
  Some (["1"; "x"], Ok [1; 10; 20; 12; 18; 99], Ok [1; 10; 20; 12; 18; 99]).
Proof. vm_compute. reflexivity. Qed.
Lemma C95_differ : both (fun _ => 0) (run_all sort_factors toy_hash 101 1000 (tree_of 1000 C95_text)) ["x"; "y"; "z"; "u"] (C95_inp 60 60 50 70) =
  Some (["1"; "x"], Ok [1; 60; 60; 50; 70; 65], Err).
Proof. vm_compute. reflexivity. Qed.
Lemma C95_supplied a b c e : supplied ["1"; "x"] ["x"; "y"; "z"; "u"] (C95_inp a b c e).
Proof.
  split; [repeat (constructor; [apply absent; reflexivity|]); constructor|]. intros x. cbn. split.
  - intros [<-|[<-|[<-|[<-|[]]]]]; (split; [auto 12|discriminate]).
  - intros [[<-|[<-|[<-|[<-|[<-|[<-|[]]]]]]] N]; auto 12; now destruct N.
Qed.
Lemma C95_compiled : exists p r st, run_all sort_factors toy_hash 101 1000 (tree_of 1000 C95_text) = Some (p, r, st) /\
  compiles sort_factors toy_hash 101 C95_defs ["x"; "y"; "z"; "u"] p r st /\ List.length (gates (scoll st)) = 2%nat /\ (ppublic p = ["1"; "x"] -> publics_ok p).
Proof.
  destruct (checked_ok _ _ C95_checked) as (p & r & st & E & H1 & D & H3). exists p, r, st. split; [exact E|]. apply run_all_inv in E. destruct E as [Eb Er]. split; [|split; [exact H3|]].
  - split; [exact C95_ok|]. split; [eexists; reflexivity|]. split; [|split; [exact H1|exact D]]. exists (tree_of 1000 C95_text), 1000%nat, 1000%nat. split; [exact C95_encoded|]. split; [exact Eb|exact Er].
  - unfold publics_ok. intros ->. split; [repeat (constructor; [apply absent; reflexivity|]); constructor|]. constructor; [now left|]. constructor; [right; split; [reflexivity|apply absent; reflexivity]|constructor].
Qed.
(** Honest inputs of [C95_text] whose sums pass the modulus: the dense solver returns the witness, the sparse solver an error. *)
Theorem C95_honest_refuted : exists p r st d s W, compiles sort_factors toy_hash 101 C95_defs ["x"; "y"; "z"; "u"] p r st /\ publics_ok p /\
  numbers_plain p ["x"; "y"; "z"; "u"] st /\ coefs_plain 101 st /\
  gates_to_r1cs (ppublic p) ["x"; "y"; "z"; "u"] (gates (scoll st)) false = Some d /\ gates_to_sparse_r1cs 101 (ppublic p) ["x"; "y"; "z"; "u"] (gates (scoll st)) false = Some s /\
  program_means 101 (fun _ => 0) C95_defs (C95_w 60 60 50 70) (Some (Wire 3600)) [(120, 120)]%Z /\ supplied (ppublic p) ["x"; "y"; "z"; "u"] (C95_inp 60 60 50 70) /\
  calculate_witness 101 (fun _ => 0) (index_map d) (split_map d) (rows d) 0 (C95_inp 60 60 50 70) = Ok W /\ Forall (row_ok 101 (fun _ => 0) W) (rows d) /\ ~ Forall (out_fits 101 W) (rows d) /\
  calculate_sparse_witness 101 (fun _ => 0) (index_map s) (split_map s) (rows s) 0 (C95_inp 60 60 50 70) = Err.
Proof.
  destruct C95_compiled as (p & r & st & E & HC & _ & HP). assert (A := C95_differ). rewrite E in A. apply both_inv in A. destruct A as (P & NP & CP & d & s & ED & ES & HD & HS).
  specialize (HP P). assert (SI : supplied (ppublic p) ["x"; "y"; "z"; "u"] (C95_inp 60 60 50 70)) by (rewrite P; apply C95_supplied).
  exists p, r, st, d, s, [1; 60; 60; 50; 70; 65]. do 6 (split; [assumption|]). split; [exact (C95_means (fun _ => 0) 60 60 50 70)|]. split; [exact SI|]. split; [exact HD|].
  assert (Hp : prime 101) by exact prime_101.
  assert (HI : forall x a, In (x, a) (C95_inp 60 60 50 70) -> a = C95_w 60 60 50 70 x) by (intros x a [[= <- <-]|[[= <- <-]|[[= <- <-]|[[= <- <-]|[]]]]]; reflexivity).
  split; [|split; [|exact HS]].
  - apply (C81_solver sort_factors toy_hash 101 (fun _ => 0) C95_defs _ p r st d sort_factors_perm Hp (cong_refl _ _) HC HP ED _ _ _ 0 _ (C95_means (fun _ => 0) 60 60 50 70) SI HI). exact HD.
  - intros F. assert (X := proj2 (C95_program sort_factors toy_hash 101 (fun _ => 0) C95_defs _ p r st d s sort_factors_perm Hp (cong_refl _ _) (fun _ _ => eq_refl) HC HP NP CP ED ES 0 _ _ SI) (conj HD F)).
    rewrite HS in X. discriminate X.
Qed.
Print Assumptions C95_honest_refuted.
Example C95_case : exists p r st d s, compiles sort_factors toy_hash 101 C95_defs ["x"; "y"; "z"; "u"] p r st /\ publics_ok p /\
  numbers_plain p ["x"; "y"; "z"; "u"] st /\ coefs_plain 101 st /\ List.length (gates (scoll st)) = 2%nat /\
  gates_to_r1cs (ppublic p) ["x"; "y"; "z"; "u"] (gates (scoll st)) false = Some d /\ gates_to_sparse_r1cs 101 (ppublic p) ["x"; "y"; "z"; "u"] (gates (scoll st)) false = Some s /\
  program_means 101 (fun _ => 0) C95_defs (C95_w 10 20 12 18) (Some (Wire 200)) [(30, 30)]%Z /\ supplied (ppublic p) ["x"; "y"; "z"; "u"] (C95_inp 10 20 12 18) /\
  calculate_witness 101 (fun _ => 0) (index_map d) (split_map d) (rows d) 0 (C95_inp 10 20 12 18) = Ok [1; 10; 20; 12; 18; 99] /\ Forall (out_fits 101 [1; 10; 20; 12; 18; 99]) (rows d) /\
  calculate_sparse_witness 101 (fun _ => 0) (index_map s) (split_map s) (rows s) 0 (C95_inp 10 20 12 18) = Ok [1; 10; 20; 12; 18; 99].
Proof.
  destruct C95_compiled as (p & r & st & E & HC & L & HP). assert (A := C95_both). rewrite E in A. apply both_inv in A. destruct A as (P & NP & CP & d & s & ED & ES & HD & HS).
  specialize (HP P). assert (SI : supplied (ppublic p) ["x"; "y"; "z"; "u"] (C95_inp 10 20 12 18)) by (rewrite P; apply C95_supplied).
  exists p, r, st, d, s. do 7 (split; [assumption|]). split; [exact (C95_means (fun _ => 0) 10 20 12 18)|]. split; [exact SI|]. split; [exact HD|]. split; [|exact HS].
  exact (proj2 (proj1 (C95_program sort_factors toy_hash 101 (fun _ => 0) C95_defs _ p r st d s sort_factors_perm prime_101 (cong_refl _ _) (fun _ _ => eq_refl) HC HP NP CP ED ES 0 _ _ SI) HS)).
Qed.
