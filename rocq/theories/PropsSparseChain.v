(** C93: from a program to a sparse proof. *)
Require Import ZArith Znumtheory NArith Lia Bool Permutation Ascii String List.
Require Import Verif.Cong Verif.FqModel Verif.FqSpec Verif.FqProofs Verif.Pocklington Verif.AvlModel Verif.AvlSpec Verif.AvlProofs Verif.PolyModel Verif.PolyProofs Verif.InterpProofs.
Require Import Verif.SparseModel Verif.SparseSpec Verif.SparseProofs Verif.SparseProofs2.
Require Import Verif.CurveModel Verif.CurveSpec Verif.PairModel Verif.PairProofs Verif.SnarkModel Verif.SnarkSpec Verif.SnarkProofs2 Verif.SnarkProofs3 Verif.BnGroups Verif.PropsSnark Verif.PropsBn.
Require Import Verif.SparseSnarkSpec Verif.PropsSparseSnark Verif.SparseSim Verif.PropsSparseBn.
Require Import Verif.FactorModel Verif.FactorSpec Verif.FactorProofs Verif.ExprModel Verif.ExprSpec Verif.ExprProofs Verif.ExprProofs2.
Require Import Verif.R1csModel Verif.R1csSpec Verif.R1csProofs Verif.EndProofs.
Require Import Verif.WitnessModel Verif.WitnessSpec Verif.SolveProofs Verif.SolveRange.
Require Import Verif.ParserModel Verif.CircuitModel Verif.LangSpec Verif.LangHeap Verif.LangSym Verif.LangRun Verif.LangBuild Verif.LangField Verif.LangGood.
Require Import Verif.PropsFactor Verif.PropsExpr Verif.PropsR1cs Verif.PropsEnd Verif.PropsSolve Verif.PropsLang Verif.GoodSystem Verif.PropsProgram Verif.SystemShape Verif.PropsChain.
Import ListNotations.
Local Open Scope string_scope.
Local Open Scope list_scope.
Local Open Scope Z_scope.

(** ** Generated sparse rows are trees with keys below the number of wires. *)
Definition fits (n : nat) (t : tree) : Prop := wf t /\ below (tc t) n.
Section Sized.
Variable q : Z.
Variable m : imap.
Hypothesis idx : forall x i, im_get m x = Some i -> (i < List.length m)%nat.
Hypothesis pos : (0 < List.length m)%nat.
Notation n := (List.length m).
Lemma idx_below x : (im_idx m x < n)%nat.
Proof using idx pos. unfold im_idx. destruct (im_get m x) eqn:E; [eapply idx; eauto|exact pos]. Qed.
Lemma fits_leaf : fits n Leaf.
Proof using Type. split; [apply wf_leaf|]. intros k _. apply lookup_leaf. Qed.
Lemma fits_put t i x t' : fits n t -> (i < n)%nat -> tree_put t (N.of_nat i) x (add_cb q) = Some t' -> fits n t'.
Proof using Type.
  intros [W B] Hi E. destruct (put_lookup t (N.of_nat i) x (add_cb q) _ W eq_refl) as [t1 [E1 [W' L]]].
  rewrite E in E1. injection E1 as <-. split; [exact W'|]. intros k Hk. unfold tc. rewrite L.
  destruct (N.eqb_spec (N.of_nat k) (N.of_nat i)); [clear pos idx; lia|]. now apply B.
Qed.
Lemma fits_insert t i x t' : fits n t -> (i < n)%nat -> insert t (N.of_nat i) x = Some t' -> fits n t'.
Proof using Type.
  intros [W B] Hi E. destruct (AvlProofs.insert_spec t (AvlProofs.lookup t) (N.of_nat i) x (wf_rep t W)) as [t1 [E1 [W' L]]].
  rewrite E in E1. injection E1 as <-. split; [exact W'|]. intros k Hk. unfold tc. rewrite L. unfold AvlSpec.aset.
  destruct (N.eqb_spec (N.of_nat k) (N.of_nat i)); [clear pos idx; lia|]. now apply B.
Qed.
Lemma fits_values : forall f t t', fits n t -> sinsert_values q m t f = Some t' -> fits n t'.
Proof using idx pos.
  induction f as [|x f IH]; intros t t' F E; cbn [sinsert_values] in E; [now injection E as <-|].
  destruct (sinsert_value q m t x) as [t1|] eqn:E1; [|discriminate]. apply (IH t1); [|exact E]. unfold sinsert_value in E1.
  destruct (is_number x); [exact (fits_put _ _ _ _ F (idx_below _) E1)|]. destruct (im_get m (ident (ftok x))) as [i|] eqn:G; [|discriminate].
  exact (fits_put _ _ _ _ F (idx _ _ G) E1).
Qed.
Lemma fits_svec f t : svec q m f = Some t -> fits n t.
Proof using idx pos. apply fits_values, fits_leaf. Qed.
Lemma fits_unit i t : (i < n)%nat -> sunit_at i = Some t -> fits n t.
Proof using Type. intros Hi. apply fits_insert; [exact fits_leaf|exact Hi]. Qed.
Definition row_fits (r : row tree) : Prop := fits n (rl r) /\ fits n (rr r) /\ fits n (re r) /\ fits n (ro r).
Lemma mk_srow_inv l r e o w : mk_srow l r e o = Some w -> l = Some (rl w) /\ r = Some (rr w) /\ e = Some (re w) /\ o = Some (ro w).
Proof using Type. unfold mk_srow. destruct l, r, e, o; try discriminate. intros [= <-]. auto. Qed.
Lemma sgate_row_fits g r : sgate_row q m g = Some r -> row_fits r.
Proof using idx pos.
  assert (L : forall t, Some Leaf = Some t -> fits n t) by (intros t [= <-]; exact fits_leaf).
  assert (V := fits_svec). assert (U0 : forall t, sunit_at 0 = Some t -> fits n t) by (intros t; apply fits_unit; exact pos).
  assert (UG : forall x t, sunit_at (im_idx m x) = Some t -> fits n t) by (intros x t; apply fits_unit, idx_below).
  unfold sgate_row. destruct (swap_sides g) as [l' r']. destruct (gtyp g); try discriminate; intros H; apply mk_srow_inv in H; destruct H as (A & B & C & D);
    (split; [|split; [eauto|split; eauto]]); eauto.
  destruct (insert Leaf 0 (-1)) as [a|] eqn:E; [|discriminate]. exact (fits_insert a _ _ _ (fits_insert Leaf 0 (-1) a fits_leaf pos E) (idx_below _) A).
Qed.
Lemma srand_row_fits r : srand_row q m = Some r -> row_fits r.
Proof using idx pos. intros H. apply mk_srow_inv in H. destruct H as (A & B & C & D). repeat split; eapply fits_svec; eauto. Qed.
End Sized.
Lemma sparse_system_sized q pubs ins gs rz s : names_ok pubs ins gs rz -> gates_to_sparse_r1cs q pubs ins gs rz = Some s -> sparse_sized s.
Proof.
  intros Hn E. destruct (proj2 (C27_numbering q pubs ins gs rz Hn) s E) as (N1 & N2 & N3). revert E.
  unfold gates_to_sparse_r1cs, with_rand. destruct (build_index pubs ins gs rz) as [[m sp]|]; [|discriminate].
  destruct (R1csModel.all_some (sgate_row q m) gs) as [rs|] eqn:E; [|discriminate]. intros ES.
  assert (IM : index_map s = m) by (destruct rz; [destruct (srand_row q m); [|discriminate]|]; injection ES as <-; reflexivity). rewrite IM in N2, N3.
  assert (idx : forall x i, im_get m x = Some i -> (i < List.length m)%nat).
  { intros x i H. apply N3 in H. rewrite N2. apply nth_error_Some. congruence. }
  assert (pos : (0 < List.length m)%nat).
  { rewrite N2. destruct Hn as (_ & Hn & _). unfold wire_names. destruct pubs; [discriminate|cbn; lia]. }
  apply all_some_forall with (P := row_fits m) in E; [|apply sgate_row_fits; assumption].
  assert (X : Forall (row_fits m) (rows s)).
  { destruct rz.
    - destruct (srand_row q m) as [r|] eqn:R; [|discriminate]. injection ES as <-. cbn [rows]. apply Forall_app. split; [exact E|].
      constructor; [|constructor]. exact (srand_row_fits q m idx pos r R).
    - injection ES as <-. exact E. }
  unfold sparse_sized. rewrite IM. eapply Forall_impl; [|exact X]. intros r (A & B & C & D). repeat constructor; try apply A; try apply B; try apply C; apply D.
Qed.
Lemma sparse_system_free q pubs ins gs s : Forall plain_gate gs -> gates_to_sparse_r1cs q pubs ins gs false = Some s -> sparse_exponent_free s.
Proof.
  intros HP. unfold gates_to_sparse_r1cs, with_rand. destruct (build_index pubs ins gs false) as [[m sp]|]; [|discriminate].
  destruct (R1csModel.all_some (sgate_row q m) gs) as [rs|] eqn:E; [|discriminate]. intros [= <-]. unfold sparse_exponent_free. cbn [rows].
  revert rs E. induction HP as [|g gs Hg _ IH]; intros rs E; cbn in E; [injection E as <-; constructor|].
  destruct (sgate_row q m g) as [r|] eqn:Er; [|discriminate]. destruct (R1csModel.all_some (sgate_row q m) gs) as [rs'|]; [|discriminate]. injection E as <-.
  constructor; [|now apply IH]. unfold sgate_row in Er. destruct (swap_sides g) as [l' r']. unfold plain_gate in Hg.
  destruct (gtyp g); try discriminate; try congruence; apply mk_srow_inv in Er; destruct Er as (_ & _ & C & _); now injection C as <-.
Qed.

Section P.
Variable sort : factors -> factors.
Hypothesis sort_perm : forall l, Permutation (sort l) l.
Variable hash : string -> Z.
Variable q : Z.
Hypothesis Hq : prime q.
Variables (fs : defs) (ins : list string) (p : program) (r : ret) (st : state).
Hypothesis HC : compiles sort hash q fs ins p r st.
Hypothesis HP : publics_ok p.
Variable d : er1cs (list Z).
Hypothesis ED : gates_to_r1cs (ppublic p) ins (gates (scoll st)) false = Some d.
Variable s : er1cs tree.
Hypothesis ES : gates_to_sparse_r1cs q (ppublic p) ins (gates (scoll st)) false = Some s.
Hypothesis NA : Forall (numbers_apart (wire_names (ppublic p) ins (gates (scoll st)) false)) (gates (scoll st)).

Lemma q_nz : q <> 0. Proof using Hq. destruct Hq; lia. Qed.
Lemma schain_names : names_ok (ppublic p) ins (gates (scoll st)) false.
Proof using HC HP. exact (sys_ok (scoll st) (ppublic p) ins (proj1 HP) (prog_one _ _ _ _ _ _ _ _ HC)). Qed.
Lemma schain_sized : sparse_sized s.
Proof using HC HP ES. exact (sparse_system_sized _ _ _ _ _ _ schain_names ES). Qed.
Lemma schain_free : prog_free fs = true -> sparse_exponent_free s.
Proof using HC ES.
  intros HF. destruct (prog_run _ _ _ _ _ _ _ _ HC) as (body & Em & _ & M & _).
  eapply sparse_system_free; [|exact ES]. assert (X := main_plain sort hash q fs HF _ _ _ _ _ M (free_fun fs HF "main" ins body Em)). apply X. constructor.
Qed.
Lemma schain_rows : List.length (rows s) = List.length (gates (scoll st)).
Proof using sort_perm Hq HC HP ES.
  destruct (C81_generated sort hash q fs ins p r st sort_perm Hq HC HP) as [_ (s' & E & L)]. rewrite ES in E. now injection E as <-.
Qed.
Lemma schain_maps : index_map d = index_map s /\ split_map d = split_map s.
Proof using sort_perm Hq HC HP ED ES NA.
  destruct (prog_nice sort sort_perm hash q Hq (fun _ => 0) fs ins p r st HC HP) as (HG & _).
  assert (D2 := prog_one _ _ _ _ _ _ _ _ HC). assert (D3 := prog_declared _ _ _ _ _ _ _ _ HC). assert (D4 := prog_apart _ _ _ _ _ _ _ _ HC HP).
  assert (X := C29_agree q (ppublic p) ins (gates (scoll st)) false q_nz schain_names).
  rewrite ED, ES in X. destruct X as (X & Y & _); auto.
  - exact (sys_shape _ _ _ _ _ HG).
  - exact (sys_distinct _ _ _ HG).
Qed.

Variable gx : Z -> Z.
Hypothesis G0 : gx 0 ==[q] 0.
(** The sparse rows hold exactly if the dense ones do. *)
Lemma schain_holds W : List.length W = List.length (index_map s) -> nth 0 W 0 = 1 ->
  (Forall (srow_ok q gx W) (rows s) <-> Forall (row_ok q gx W) (rows d)).
Proof using sort_perm Hq HC HP ED ES NA G0.
  intros L W0. destruct schain_maps as [M _]. rewrite <- M in L.
  destruct (prog_nice sort sort_perm hash q Hq (fun _ => 0) fs ins p r st HC HP) as (HG & _).
  assert (D2 := prog_one _ _ _ _ _ _ _ _ HC). assert (D3 := prog_declared _ _ _ _ _ _ _ _ HC). assert (D4 := prog_apart _ _ _ _ _ _ _ _ HC HP).
  rewrite (sys_holds q Hq gx G0 _ _ _ (ppublic p) ins HG (proj1 HP) D2 D3 D4 d ED W L W0).
  assert (RD := sys_read q (scoll st) (ppublic p) ins (proj1 HP) D2 d ED W L).
  assert (R1 := sys_first q (fun x => In x ins) (scoll st) (ppublic p) ins (proj1 HP) D2 D3 D4 d ED W). rewrite W0 in R1.
  set (a := read (index_map d) W) in *. rewrite <- RD at 1.
  destruct (C28_sparse q gx a (ppublic p) ins (gates (scoll st)) false s q_nz G0 R1 schain_names (sys_shape _ _ _ _ _ HG) NA ES) as [rs [ex [-> [F ->]]]].
  rewrite app_nil_r. clear - F. unfold all_hold. revert F. generalize (map a (wire_names (ppublic p) ins (gates (scoll st)) false)). intros w F.
  induction F as [|g r' gs' rs' H F IH]; [split; constructor|]. rewrite !Forall_cons_iff. tauto.
Qed.
Lemma schain_inputs inp : supplied (ppublic p) ins inp -> PropsWitness.inputs_ok (index_map s) (split_map s) inp.
Proof using sort_perm Hq HC HP ED ES NA.
  intros [S1 S2]. destruct schain_maps as [<- <-]. assert (D2 := prog_one _ _ _ _ _ _ _ _ HC).
  destruct (prog_nice sort sort_perm hash q Hq (fun _ => 0) fs ins p r st HC HP) as (HG & _).
  destruct (sys_num q (scoll st) (ppublic p) ins (proj1 HP) D2 d ED) as [N1 [N2 N3]].
  assert (SP : bit_indices (split_map d) = []) by now rewrite (sys_split _ _ _ _ _ HG (proj1 HP) D2 d ED).
  assert (Gi : forall x, In x (ppublic p ++ ins) -> exists i, im_get (index_map d) x = Some i /\ im_idx (index_map d) x = i).
  { intros x Hx. apply (sys_in (scoll st)), In_nth_error in Hx. destruct Hx as [i Hi]. apply N3 in Hi. exists i. unfold im_idx. now rewrite Hi. }
  split; [|rewrite SP; split; [easy|]].
  - assert (G : forall l, incl l inp -> NoDup (map fst l) -> NoDup (map (fun e => im_idx (index_map d) (fst e)) l)); [|apply G; auto; apply incl_refl].
    induction l as [|[x v] l IH]; intros HI ND; [constructor|]. cbn [map fst] in *. inversion ND as [|? ? M1 M2]; subst.
    constructor; [|apply IH; auto; intros y Hy; apply HI; now right]. intros C. apply M1. apply in_map_iff in C. destruct C as [[y u] [Ey Hy]]. cbn [fst] in Ey.
    assert (Ix : In x (ppublic p ++ ins)). { apply S2. change x with (fst (x, v)). apply in_map, HI. now left. }
    assert (Iy : In y (ppublic p ++ ins)). { apply S2. change y with (fst (y, u)). apply in_map, HI. now right. }
    destruct (Gi x Ix) as [i [Gx Ei]], (Gi y Iy) as [j [Gy Ej]]. apply N3 in Gx, Gy. apply in_map_iff. exists (y, u). split; auto. cbn. congruence.
  - intros x v Hx. split; [|easy]. assert (Ix : In x (ppublic p ++ ins) /\ x <> "1"). { apply S2. change x with (fst (x, v)). now apply in_map. }
    destruct (Gi x (proj1 Ix)) as [i [Gx Ei]]. intros C. apply (proj2 Ix). apply N3 in Gx.
    assert (X := sys_one (fun x => In x ins) (scoll st) (ppublic p) ins (proj1 HP) D2 (prog_declared _ _ _ _ _ _ _ _ HC) (prog_apart _ _ _ _ _ _ _ _ HC HP) d ED). rewrite <- Ei, C, X in Gx. now injection Gx.
Qed.
End P.

(** No number in the gates is written like the name of a wire (C29). *)
Definition numbers_plain (p : program) (ins : list string) (st : state) : Prop :=
  Forall (numbers_apart (wire_names (ppublic p) ins (gates (scoll st)) false)) (gates (scoll st)).

(** The sparse system of a program has the wires of the dense one, one row per gate, and the same solutions. *)
Theorem C93_system : forall sort hash q gx fs ins p r st, (forall l, Permutation (sort l) l) -> prime q -> gx 0 ==[q] 0 ->
  compiles sort hash q fs ins p r st -> publics_ok p -> numbers_plain p ins st ->
  exists d s, gates_to_r1cs (ppublic p) ins (gates (scoll st)) false = Some d /\ gates_to_sparse_r1cs q (ppublic p) ins (gates (scoll st)) false = Some s /\
    sparse_sized s /\ List.length (rows s) = List.length (gates (scoll st)) /\ index_map s = index_map d /\ split_map s = split_map d /\
    forall W, List.length W = List.length (index_map s) -> nth 0 W 0 = 1 -> (Forall (srow_ok q gx W) (rows s) <-> Forall (row_ok q gx W) (rows d)).
Proof.
  intros sort hash q gx fs ins p r st Hs Hq G0 HC HP NA. destruct (C81_generated sort hash q fs ins p r st Hs Hq HC HP) as [(d & ED & _) (s & ES & L)].
  exists d, s. split; [exact ED|]. split; [exact ES|]. split; [exact (schain_sized sort hash q fs ins p r st HC HP s ES)|]. split; [exact L|].
  destruct (schain_maps sort Hs hash q Hq fs ins p r st HC HP d ED s ES NA) as [M1 M2]. split; [auto|]. split; [auto|].
  exact (schain_holds sort Hs hash q Hq fs ins p r st HC HP d ED s ES NA gx G0).
Qed.
Print Assumptions C93_system.

(** What the sparse solver returns is a solution with the inputs given, hence a run of the program. *)
Theorem C93_solver : forall sort hash q gx fs ins p r st s, (forall l, Permutation (sort l) l) -> prime q -> gx 0 ==[q] 0 ->
  (forall k, 0 <= k -> gx k = gx (k mod q)) ->
  compiles sort hash q fs ins p r st -> publics_ok p -> numbers_plain p ins st ->
  gates_to_sparse_r1cs q (ppublic p) ins (gates (scoll st)) false = Some s ->
  forall rnd inp W, supplied (ppublic p) ins inp -> calculate_sparse_witness q gx (index_map s) (split_map s) (rows s) rnd inp = Ok W ->
  Forall (srow_ok q gx W) (rows s) /\ List.length W = List.length (index_map s) /\ nth 0 W 0 = 1 /\ (forall x v, In (x, v) inp -> read (index_map s) W x = v) /\
  forall v asked, program_means q gx fs (read (index_map s) W) v asked ->
  Forall (fun e => fst e ==[q] snd e) asked /\
  match v with
  | Some u => lin (read (index_map s) W) (strip (rvals r)) ==[q] num_of u /\
              (is_single_number (strip (rvals r)) = true \/ exists i, (i < List.length W)%nat /\ nth i W 0 ==[q] num_of u)
  | None => strip (rvals r) = []
  end.
Proof.
  intros sort hash q gx fs ins p r st s Hs Hq G0 HX HC HP NA ES rnd inp W SI HW.
  destruct (C81_generated sort hash q fs ins p r st Hs Hq HC HP) as [(d & ED & _) _].
  destruct (schain_maps sort Hs hash q Hq fs ins p r st HC HP d ED s ES NA) as [M1 M2].
  assert (HI := schain_inputs sort Hs hash q Hq fs ins p r st HC HP d ED s ES NA inp SI).
  destruct (PropsWitness.C32_sparse _ _ _ _ _ _ _ _ HI HW) as (L & W0 & WI).
  assert (SAT : Forall (srow_ok q gx W) (rows s)).
  { refine (PropsWitness.C31_sound q gx _ _ _ rnd inp W Hq HX _ HW). assert (SZ := schain_sized sort hash q fs ins p r st HC HP s ES).
    eapply Forall_impl; [|exact SZ]. cbn. intros a H. rewrite !Forall_cons_iff in H. tauto. }
  split; [exact SAT|]. split; [exact L|]. split; [exact W0|]. split.
  - intros x v Hx. specialize (WI x v Hx). unfold im_idx in WI. unfold read. destruct (im_get (index_map s) x) as [i|] eqn:E; [exact WI|exfalso].
    destruct HI as (_ & _ & HI). destruct (HI x v Hx) as [H0 _]. apply H0. unfold im_idx. now rewrite E.
  - intros v asked M. apply (schain_holds sort Hs hash q Hq fs ins p r st HC HP d ED s ES NA gx G0 W L W0) in SAT. rewrite <- M1 in *.
    exact (C81_sound sort hash q gx fs ins p r st d Hs Hq G0 HC HP ED W L W0 SAT v asked M).
Qed.
Print Assumptions C93_solver.

(** What GenerateProof_Sparse proves is a run of the program. *)
Theorem C93_run : forall sort hash q G fs ins p r st s, (forall l, Permutation (sort l) l) -> prime q -> xcoord G (base1 G 0) = 0 ->
  compiles sort hash q fs ins p r st -> publics_ok p -> numbers_plain p ins st ->
  gates_to_sparse_r1cs q (ppublic p) ins (gates (scoll st)) false = Some s ->
  (1 <= List.length (gates (scoll st)))%nat -> Z.of_nat (List.length (gates (scoll st))) <= q ->
  forall pub T c0 c1 c c' x al be ga de k W Px fuel pr, scache_ok q c -> List.length W = List.length (index_map s) -> nth 0 W 0 = 1 ->
  transpose_sparse_er1cs s = Some T -> generate_setup_sparse q G c0 pub T x al be ga de = Some (k, c1) ->
  combine_sparse_polynomials q G c W T = Some (Px, c') -> generate_proofs_sparse q G fuel pub k W Px = SparseModel.Ret pr ->
  forall v asked, program_means q (gxc G) fs (read (index_map s) W) v asked ->
  Forall (fun e => fst e ==[q] snd e) asked /\
  match v with
  | Some u => lin (read (index_map s) W) (strip (rvals r)) ==[q] num_of u /\
              (is_single_number (strip (rvals r)) = true \/ exists i, (i < List.length W)%nat /\ nth i W 0 ==[q] num_of u)
  | None => strip (rvals r) = []
  end.
Proof.
  intros sort hash q G fs ins p r st s Hs Hq X0 HC HP NA ES N1 Nq pub T c0 c1 c c' x al be ga de k W Px fuel pr Hc L W0 ET EK EP EG v asked M.
  assert (G0 : gxc G 0 ==[q] 0) by (apply cong_eq; exact X0).
  destruct (C81_generated sort hash q fs ins p r st Hs Hq HC HP) as [(d & ED & _) _].
  destruct (schain_maps sort Hs hash q Hq fs ins p r st HC HP d ED s ES NA) as [M1 _].
  assert (LR := schain_rows sort Hs hash q Hq fs ins p r st HC HP s ES). rewrite <- LR in N1, Nq.
  assert (SZ := schain_sized sort hash q fs ins p r st HC HP s ES).
  assert (SAT : ~ ~ Forall (srow_ok q (gxc G) W) (rows s)).
  { intros NR. exact (proj1 (C90_no_proof q G s T c0 c1 pub x al be ga de k c c' W Px Hq N1 Nq SZ X0 Hc L ET EK EP NR) fuel pr EG). }
  assert (DEC : Forall (srow_ok q (gxc G) W) (rows s) \/ ~ Forall (srow_ok q (gxc G) W) (rows s)).
  { clear -Hq. induction (rows s) as [|a l IH]; [left; constructor|]. rewrite Forall_cons_iff.
    assert (D : srow_ok q (gxc G) W a \/ ~ srow_ok q (gxc G) W a).
    { unfold srow_ok. match goal with |- ?u ==[q] ?v \/ _ => destruct (Z.eq_dec (u mod q) (v mod q)) as [E|E] end;
        [left|right; intros H; apply E]; apply cong_mod_iff; auto; destruct Hq; lia. }
    tauto. }
  destruct DEC as [Y|N]; [|contradiction].
  apply (schain_holds sort Hs hash q Hq fs ins p r st HC HP d ED s ES NA (gxc G) G0 W L W0) in Y. rewrite <- M1 in *.
  exact (C81_sound sort hash q (gxc G) fs ins p r st d Hs Hq G0 HC HP ED W L W0 Y v asked M).
Qed.
Print Assumptions C93_run.

(** The whole way: keys and proof are made, and the verdict on the constant and the public values is as C91 says. *)
Theorem C93_honest : forall sort hash q G fs ins p r st d s T, (forall l, Permutation (sort l) l) -> prime q -> lawful q G ->
  compiles sort hash q fs ins p r st -> publics_ok p -> numbers_plain p ins st ->
  gates_to_r1cs (ppublic p) ins (gates (scoll st)) false = Some d -> gates_to_sparse_r1cs q (ppublic p) ins (gates (scoll st)) false = Some s ->
  transpose_sparse_er1cs s = Some T ->
  (1 <= List.length (gates (scoll st)) <= List.length (index_map s))%nat -> Z.of_nat (List.length (index_map s)) <= q ->
  (List.length (ppublic p) < List.length (index_map s))%nat ->
  forall w v asked rnd inp c c2 x al be ga de, program_means q (gxc G) fs w v asked -> Forall (fun e => fst e ==[q] snd e) asked ->
  supplied (ppublic p) ins inp -> (forall y a, In (y, a) inp -> a = w y) -> 0 <= rnd -> Forall (fun e => 0 <= snd e) inp ->
  scache_ok q c -> scache_ok q c2 -> 0 <= x < q -> 0 <= al -> 0 <= be -> 0 <= ga -> 0 <= de -> ~ ga ==[q] 0 -> ~ de ==[q] 0 ->
  let pub := List.length (ppublic p) in let m := List.length (index_map s) in
  exists W k c1 Px c3, calculate_witness q (gxc G) (index_map d) (split_map d) (rows d) rnd inp = Ok W /\
    generate_setup_sparse q G c pub T x al be ga de = Some (k, c1) /\ combine_sparse_polynomials q G c2 W T = Some (Px, c3) /\
    (sparse_prover_safe q G pub k W Px -> verifier_safe G k (signals_of p w) ->
     exists pr b, (forall fuel, (2 * List.length (gates (scoll st)) <= fuel)%nat -> generate_proofs_sparse q G fuel pub k W Px = SparseModel.Ret pr) /\
     verify_proof G k pr (signals_of p w) = Some b /\
     (prog_free fs = true -> List.length (gates (scoll st)) = m -> b = true) /\
     forall l r g o l' r' e' o', interpolates q (row_values rl W s) l -> interpolates q (row_values rr W s) r ->
       interpolates q (map (fun v => gxc G (v mod q)) (row_values re W s)) g -> interpolates q (row_values ro W s) o ->
       interpolates q (padded m (row_values rl W s)) l' -> interpolates q (padded m (row_values rr W s)) r' ->
       interpolates q (padded m (row_values re W s)) e' -> interpolates q (padded m (row_values ro W s)) o' ->
       (b = true <-> poly_at l' x * poly_at r' x + gxc G (poly_at e' x mod q) - poly_at o' x ==[q]
                     poly_at l x * poly_at r x + poly_at g x - poly_at o x)).
Proof.
  intros sort hash q G fs ins p r st d s T Hs Hq LG HC HP NA ED ES ET N1 Nq Npub w v asked rnd inp c c2 x al be ga de M A SI IV Hr HI Hc Hc2 Hx Hal Hbe Hga Hde Nga Nde pub m.
  assert (G0 : gxc G 0 ==[q] 0) by (apply cong_eq; exact (law_x0 q G LG)).
  destruct (schain_maps sort Hs hash q Hq fs ins p r st HC HP d ED s ES NA) as [M1 _].
  assert (LD := chain_rows sort Hs hash q Hq fs ins p r st HC HP d ED).
  assert (LR := schain_rows sort Hs hash q Hq fs ins p r st HC HP s ES). rewrite <- LR in *.
  assert (SZ := schain_sized sort hash q fs ins p r st HC HP s ES).
  destruct (chain_witness sort Hs hash q Hq fs ins p r st HC HP d ED (gxc G) G0 w v asked rnd inp M A SI IV Hr HI ltac:(lia)) as (W & Td & HW & _ & LW & PW & SAT & SG).
  assert (W0 : nth 0 W 0 = 1).
  { destruct (C81_solver sort hash q (gxc G) fs ins p r st d Hs Hq G0 HC HP ED w v asked rnd inp M SI IV) as [_ HO]. exact (proj1 (proj2 (HO W HW))). }
  rewrite M1 in LW. apply (schain_holds sort Hs hash q Hq fs ins p r st HC HP d ED s ES NA (gxc G) G0 W LW W0) in SAT.
  assert (P1 : (1 <= pub)%nat). { assert (D2 := prog_one _ _ _ _ _ _ _ _ HC). unfold pub. destruct (ppublic p); [discriminate|cbn; lia]. }
  destruct (C91_honest q G s T c c2 pub W x al be ga de Hq LG SZ ET ltac:(lia) ltac:(lia) Nq Hc Hc2 P1 Npub LW PW SAT Hx Hal Hbe Hga Hde Nga Nde) as (k & c1 & Px & c3 & E1 & E2 & H).
  exists W, k, c1, Px, c3. split; [exact HW|]. split; [exact E1|]. split; [exact E2|]. unfold pub in *. rewrite SG in H. intros S1 S2.
  destruct (H S1 S2) as (pr & b & E3 & E4 & HB). exists pr, b. split; [exact E3|]. split; [exact E4|]. split; [|exact HB].
  intros HF NM. assert (Fr := schain_free sort hash q fs ins p r st HC s ES HF).
  destruct (C91_accepted q G s T c c2 _ W x al be ga de Hq LG SZ Fr ET NM Nq Hc Hc2 P1 Npub LW PW SAT Hx Hal Hbe Hga Hde Nga Nde) as (k' & c1' & Px' & c3' & E1' & E2' & H').
  rewrite E1 in E1'. injection E1' as <- <-. rewrite E2 in E2'. injection E2' as <- <-. rewrite SG in H'. destruct (H' S1 S2) as (pr' & E3' & E4').
  assert (E5 := E3 _ (le_n _)). rewrite (E3' _ (le_n _)) in E5. injection E5 as <-. congruence.
Qed.
Print Assumptions C93_honest.

(** The same with the groups of package bn256, for a program with as many gates as wires. *)
Theorem C93_bn256 : forall sc sort hash fs ins p r st d s T, (forall l, Permutation (sort l) l) ->
  compiles sort hash Order fs ins p r st -> publics_ok p -> numbers_plain p ins st -> prog_free fs = true ->
  gates_to_r1cs (ppublic p) ins (gates (scoll st)) false = Some d -> gates_to_sparse_r1cs Order (ppublic p) ins (gates (scoll st)) false = Some s ->
  transpose_sparse_er1cs s = Some T ->
  List.length (gates (scoll st)) = List.length (index_map s) -> Z.of_nat (List.length (index_map s)) <= Order ->
  (List.length (ppublic p) < List.length (index_map s))%nat ->
  forall w v asked rnd inp c c2 x al be ga de, program_means Order (fun k => g1_x (g1_base k)) fs w v asked -> Forall (fun e => fst e ==[Order] snd e) asked ->
  supplied (ppublic p) ins inp -> (forall y a, In (y, a) inp -> a = w y) -> 0 <= rnd -> Forall (fun e => 0 <= snd e) inp ->
  scache_ok Order c -> scache_ok Order c2 -> 0 <= x < Order -> 0 <= al -> 0 <= be -> 0 <= ga -> 0 <= de -> ~ ga ==[Order] 0 -> ~ de ==[Order] 0 ->
  t_ready (g2_base be) -> t_ready (g2_base ga) -> t_ready (g2_base de) ->
  let pub := List.length (ppublic p) in let G := bn256 sc in
  exists W k c1 Px c3, calculate_witness Order (fun k => g1_x (g1_base k)) (index_map d) (split_map d) (rows d) rnd inp = Ok W /\
    generate_setup_sparse Order G c pub T x al be ga de = Some (k, c1) /\ combine_sparse_polynomials Order G c2 W T = Some (Px, c3) /\
    (sparse_prover_sums Order G apart1 apart2 pub k W Px -> verifier_sums G apart1 k (signals_of p w) ->
     exists pr, (forall fuel, (2 * List.length (gates (scoll st)) <= fuel)%nat -> generate_proofs_sparse Order G fuel pub k W Px = SparseModel.Ret pr) /\
     (t_ready (piB G pr) -> t_ready (add2 G (piB G pr) (beta2 G k)) -> verify_proof G k pr (signals_of p w) = Some true)).
Proof.
  intros sc sort hash fs ins p r st d s T Hs HC HP NA HF ED ES ET NM Nq Npub w v asked rnd inp c c2 x al be ga de M A SI IV Hr HI Hc Hc2 Hx Hal Hbe Hga Hde Nga Nde T1 T2 T3 pub G.
  subst G pub. assert (Hq := prime_Order). set (gx := fun k : Z => g1_x (g1_base k)) in *.
  assert (G0 : gx 0 ==[Order] 0) by (apply cong_eq; exact gen_x_0).
  destruct (schain_maps sort Hs hash Order Hq fs ins p r st HC HP d ED s ES NA) as [M1 _].
  assert (LD := chain_rows sort Hs hash Order Hq fs ins p r st HC HP d ED).
  assert (LR := schain_rows sort Hs hash Order Hq fs ins p r st HC HP s ES). rewrite <- LR in *.
  assert (SZ := schain_sized sort hash Order fs ins p r st HC HP s ES).
  assert (P1 : (1 <= List.length (ppublic p))%nat). { assert (D2 := prog_one _ _ _ _ _ _ _ _ HC). destruct (ppublic p); [discriminate|cbn; lia]. }
  destruct (chain_witness sort Hs hash Order Hq fs ins p r st HC HP d ED gx G0 w v asked rnd inp M A SI IV Hr HI ltac:(lia)) as (W & Td & HW & _ & LW & PW & SAT & SG).
  assert (W0 : nth 0 W 0 = 1).
  { destruct (C81_solver sort hash Order gx fs ins p r st d Hs Hq G0 HC HP ED w v asked rnd inp M SI IV) as [_ HO]. exact (proj1 (proj2 (HO W HW))). }
  rewrite M1 in LW. apply (schain_holds sort Hs hash Order Hq fs ins p r st HC HP d ED s ES NA gx G0 W LW W0) in SAT.
  assert (Fr := schain_free sort hash Order fs ins p r st HC s ES HF).
  destruct (C92_accepted sc s T c c2 _ W x al be ga de SZ Fr ET NM Nq Hc Hc2 P1 Npub LW PW SAT Hx Hal Hbe Hga Hde Nga Nde T1 T2 T3) as (k & c1 & Px & c3 & E1 & E2 & H).
  exists W, k, c1, Px, c3. split; [exact HW|]. split; [exact E1|]. split; [exact E2|]. rewrite SG in H. exact H.
Qed.
Print Assumptions C93_bn256.

(** ** Examples over 101 elements. *)
Definition plainb (p : program) (ins : list string) (st : state) : bool :=
  let names := wire_names (ppublic p) ins (gates (scoll st)) false in
  forallb (fun g => forallb (fun f => negb (is_number f) || String.eqb (ident (ftok f)) "1" || negb (existsb (String.eqb (ident (ftok f))) names))
                            (gleft g ++ gright g ++ gexp g ++ gout g)) (gates (scoll st)).
Lemma plainb_ok p ins st : plainb p ins st = true -> numbers_plain p ins st.
Proof.
  unfold plainb, numbers_plain. set (names := wire_names (ppublic p) ins (gates (scoll st)) false). rewrite forallb_forall, Forall_forall.
  intros H g Hg f Hf Nf. specialize (H g Hg). rewrite forallb_forall in H. specialize (H f Hf). rewrite Nf in H. cbn in H. apply orb_prop in H. destruct H as [H|H].
  - left. now apply String.eqb_eq.
  - right. intros C. apply negb_true_iff in H. assert (existsb (String.eqb (ident (ftok f))) names = true) by (apply existsb_exists; eexists; split; [exact C|apply String.eqb_refl]). congruence.
Qed.
(** Five gates and five wires. *)
Definition C93_text := "
func main(x,y){
	public{y}
	equal(x*x,y)
	equal(x*x*x,27)
	equal(x,3)
	return x*x
}
".
Definition C93_defs : defs :=
  [("main", Fun ["x"; "y"]
     [Public "y"; Equal (Bin "*" (Var "x") (Var "x")) (Var "y");
      Equal (Bin "*" (Var "x") (Bin "*" (Var "x") (Var "x"))) (Num "27");
      Equal (Var "x") (Num "3"); Return (Bin "*" (Var "x") (Var "x"))])].
Lemma C93_encoded : enc_prog C93_defs (tree_of 1000 C93_text).
Proof.
  remember (tree_of 1000 C93_text) as cs eqn:E. vm_compute in E. subst cs. unfold C93_defs.
  assert (En : forall t s, ends t (Con (Tok t s) [])) by (split; reflexivity).
  apply (enc_fun "main" ["x"; "y"] _ _ [_; _; _; _; _] _ _); [|apply En|apply enc_none].
  apply (enc_cons _ _ [_] _); [apply enc_public|]. do 3 (apply (enc_cons _ _ [_] _); [apply enc_equal; enc_exp|]).
  apply (enc_cons _ _ [_] _); [apply enc_return; enc_exp|apply enc_nil].
Qed.
Lemma C93_ok : prog_ok C93_defs.
Proof.
  split; [repeat (constructor; [apply absent; reflexivity|]); constructor|].
  constructor; [|constructor]; unfold fun_ok; cbn [fst snd fparams fbody]; heading; cbn [block_ok stmt_ok exp_ok app]; unfold new_ok, name_ok, cond_ok; cbn [cleft cright exp_ok]; scope.
Qed.
Definition C93_w (x : string) : Z := if String.eqb x "x" then 3%Z else if String.eqb x "y" then 9%Z else 0%Z.
Lemma C93_means gx : program_means 101 gx C93_defs C93_w (Some (Wire 9)) [(9, 9); (27, 27); (3, 3)]%Z.
Proof.
  eexists _, _. split; [reflexivity|]. eapply mb_cons; [apply xs_public|reflexivity|].
  change (map (fun x => (x, Wire (C93_w x))) ["x"; "y"]) with [("x", Wire 3); ("y", Wire 9)].
  assert (SQ : forall s0, ev (field_values 101 gx) C93_defs [("x", Wire 3); ("y", Wire 9)] s0 (Bin "*" (Var "x") (Var "x")) (Wire 9) s0).
  { intros s0. eapply ev_bin; [field_ev|field_ev|]. split; [apply value_left with (z := 9%Z), result_mul; cong|reflexivity]. }
  eapply mb_cons; [eapply xs_equal; [apply SQ|field_ev|reflexivity]|reflexivity|].
  eapply mb_cons; [|reflexivity|].
  { eapply xs_equal; [|field_ev|reflexivity]. eapply ev_bin; [field_ev|apply SQ|]. split; [apply value_left with (z := 27%Z), result_mul; cong|reflexivity]. }
  eapply mb_cons; [eapply xs_equal; [field_ev|field_ev|reflexivity]|reflexivity|].
  eapply mb_return; [|reflexivity]. apply xs_return. apply SQ.
Qed.
Lemma C93_checked : checked (run_all sort_factors toy_hash 101 1000 (tree_of 1000 C93_text)) 5 = true.
Proof. vm_compute. reflexivity. Qed.
Lemma C93_solved : answers (gxc G101) (run_all sort_factors toy_hash 101 1000 (tree_of 1000 C93_text)) ["x"; "y"] [("x", 3); ("y", 9)] = Some (["1"; "y"], Ok [1; 9; 3; 9; 27]).
Proof. vm_compute. reflexivity. Qed.
Definition sparse_accepts (o : option (program * ret * state)) (ins : list string) (inp : list (string * Z)) (W : list Z) (n : nat) : bool :=
  match o with
  | Some (p, _, st) =>
      plainb p ins st &&
      match gates_to_sparse_r1cs 101 (ppublic p) ins (gates (scoll st)) false with
      | Some s => Nat.eqb (List.length (index_map s)) n && sparse_safely s 2 W &&
                  match sparse_outcome 101 G101 s 2 W 5 11 12 13 14 with Some (SparseModel.Ret true) => true | _ => false end &&
                  match calculate_sparse_witness 101 (gxc G101) (index_map s) (split_map s) (rows s) 0 inp with Ok W' => if list_eq_dec Z.eq_dec W' W then true else false | _ => false end
      | None => false
      end
  | None => false
  end.
Lemma C93_accepts : sparse_accepts (run_all sort_factors toy_hash 101 1000 (tree_of 1000 C93_text)) ["x"; "y"] [("x", 3); ("y", 9)] [1; 9; 3; 9; 27] 5 = true.
Proof. vm_compute. reflexivity. Qed.
Lemma sparse_accepts_inv p r st ins inp W n : sparse_accepts (Some (p, r, st)) ins inp W n = true -> numbers_plain p ins st /\
  exists s, gates_to_sparse_r1cs 101 (ppublic p) ins (gates (scoll st)) false = Some s /\ List.length (index_map s) = n /\ sparse_safely s 2 W = true /\
    sparse_outcome 101 G101 s 2 W 5 11 12 13 14 = Some (SparseModel.Ret true) /\
    calculate_sparse_witness 101 (gxc G101) (index_map s) (split_map s) (rows s) 0 inp = Ok W.
Proof.
  unfold sparse_accepts. intros H. apply andb_true_iff in H. destruct H as [H1 H]. split; [now apply plainb_ok|].
  destruct (gates_to_sparse_r1cs 101 (ppublic p) ins (gates (scoll st)) false) as [s|]; [|discriminate]. exists s. split; [reflexivity|].
  apply andb_true_iff in H. destruct H as [H H4]. apply andb_true_iff in H. destruct H as [H H3]. apply andb_true_iff in H. destruct H as [H H2].
  split; [now apply Nat.eqb_eq|]. split; [exact H2|]. split.
  - destruct (sparse_outcome 101 G101 s 2 W 5 11 12 13 14) as [[[|]| |]|]; try discriminate H3. reflexivity.
  - destruct (calculate_sparse_witness 101 (gxc G101) (index_map s) (split_map s) (rows s) 0 inp) as [W'| |]; try discriminate H4.
    destruct (list_eq_dec Z.eq_dec W' W) as [->|]; [reflexivity|discriminate H4].
Qed.
Lemma C93_supplied : supplied ["1"; "y"] ["x"; "y"] [("x", 3); ("y", 9)].
Proof.
  split; [repeat (constructor; [apply absent; reflexivity|]); constructor|]. intros x. cbn. split.
  - intros [<-|[<-|[]]]; split; auto; discriminate.
  - intros [[<-|[<-|[<-|[<-|[]]]]] N]; auto; now destruct N.
Qed.
Example C93_case : exists p r st d s T k c1 Px c3, compiles sort_factors toy_hash 101 C93_defs ["x"; "y"] p r st /\ publics_ok p /\ numbers_plain p ["x"; "y"] st /\
  prog_free C93_defs = true /\ program_means 101 (gxc G101) C93_defs C93_w (Some (Wire 9)) [(9, 9); (27, 27); (3, 3)]%Z /\
  signals_of p C93_w = [1; 9] /\ supplied (ppublic p) ["x"; "y"] [("x", 3); ("y", 9)] /\
  gates_to_r1cs (ppublic p) ["x"; "y"] (gates (scoll st)) false = Some d /\ gates_to_sparse_r1cs 101 (ppublic p) ["x"; "y"] (gates (scoll st)) false = Some s /\
  List.length (gates (scoll st)) = 5%nat /\ List.length (index_map s) = 5%nat /\
  calculate_witness 101 (gxc G101) (index_map d) (split_map d) (rows d) 0 [("x", 3); ("y", 9)] = Ok [1; 9; 3; 9; 27] /\
  calculate_sparse_witness 101 (gxc G101) (index_map s) (split_map s) (rows s) 0 [("x", 3); ("y", 9)] = Ok [1; 9; 3; 9; 27] /\
  transpose_sparse_er1cs s = Some T /\ generate_setup_sparse 101 G101 [] 2 T 5 11 12 13 14 = Some (k, c1) /\
  combine_sparse_polynomials 101 G101 [] [1; 9; 3; 9; 27] T = Some (Px, c3) /\
  sparse_prover_safe 101 G101 2 k [1; 9; 3; 9; 27] Px /\ verifier_safe G101 k [1; 9] /\
  sparse_outcome 101 G101 s 2 [1; 9; 3; 9; 27] 5 11 12 13 14 = Some (SparseModel.Ret true).
Proof.
  destruct (checked_ok _ _ C93_checked) as (p & r & st & E & H1 & D & H3). assert (A := C93_solved). assert (C := C93_accepts). rewrite E in A, C.
  apply answers_inv in A. destruct A as (P & d & Ed & A). apply sparse_accepts_inv in C. destruct C as (NP & s & Es & Ln & SS & SO & SW).
  destruct (sparse_safely_ok _ _ _ SS) as (T & k & c1 & Px & c3 & F1 & F2 & F3 & F4 & F5). apply run_all_inv in E. destruct E as [Eb Er].
  exists p, r, st, d, s, T, k, c1, Px, c3. split; [|split; [|split; [exact NP|]; split; [reflexivity|]; split; [exact (C93_means _)|]; split; [|split;
    [|split; [exact Ed|]; split; [exact Es|]; split; [exact H3|]; split; [exact Ln|]; split; [exact A|]; split; [exact SW|]; split; [exact F1|]; split; [exact F2|]; split; [exact F3|]; split; [exact F4|]; split; [exact F5|exact SO]]]]].
  - split; [exact C93_ok|]. split; [eexists; reflexivity|]. split; [|split; [exact H1|exact D]]. exists (tree_of 1000 C93_text), 1000%nat, 1000%nat. split; [exact C93_encoded|]. split; [exact Eb|exact Er].
  - unfold publics_ok. rewrite P. split; [repeat (constructor; [apply absent; reflexivity|]); constructor|]. constructor; [now left|]. constructor; [right; split; [reflexivity|apply absent; reflexivity]|constructor].
  - unfold signals_of. rewrite P. reflexivity.
  - rewrite P. exact C93_supplied.
Qed.
