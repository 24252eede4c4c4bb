(** C58: from an arithmetic program to its constraint system. *)
Require Import ZArith Znumtheory Lia Bool Permutation Ascii String List.
Require Import Verif.Cong Verif.FqModel Verif.FqProofs Verif.FactorModel Verif.FactorSpec Verif.FactorProofs
  Verif.ExprModel Verif.ExprSpec Verif.ExprProofs Verif.ExprProofs2 Verif.AvlModel Verif.R1csModel Verif.R1csSpec Verif.R1csProofs
  Verif.EndProofs Verif.PropsFactor Verif.PropsExpr Verif.PropsR1cs.
Import ListNotations.
Open Scope Z_scope.

(** What the witness [W] says about a name. *)
Definition read (m : imap) (W : list Z) (x : string) : Z :=
  match im_get m x with Some i => nth i W 0 | None => 0 end.
(** Names occurring in the program. *)
Definition prog_names (p : prog) : list string :=
  flat_map (fun e => vars (fst e) ++ vars (snd e)) (equalities p) ++ vars (result p).
(** Public names first, "1" at the front; every name of the program declared; no gate
    identifier is a declared name. *)
Definition declared (p : prog) (pubs ins : list string) (c : collector) : Prop :=
  NoDup pubs /\ nth_error pubs 0 = Some "1"%string /\
  (forall x, In x (prog_names p) -> In x (pubs ++ ins) /\ x <> "1"%string) /\
  (forall x, In x (pubs ++ ins) -> ~ In x (known c)).
Definition no_zero_divisor (q : Z) (gx : Z -> Z) (w : assignment) (p : prog) : Prop :=
  Forall (fun e => divisors_ok q gx w (fst e) /\ divisors_ok q gx w (snd e)) (equalities p) /\ divisors_ok q gx w (result p).

Lemma declared_names p pubs ins c : declared p pubs ins c -> names_ok pubs ins (gates c) false.
Proof. intros [A [B _]]. split; auto. split; auto. discriminate. Qed.
Lemma prog_inputs p x : inputs p x <-> In x (prog_names p).
Proof. unfold inputs, prog_names. rewrite in_app_iff. reflexivity. Qed.

Section P.
Variable sort : factors -> factors.
Hypothesis sort_perm : forall l, Permutation (sort l) l.
Variable hash : string -> Z.
Variable q : Z.
Hypothesis Hq : prime q.
Variable gx : Z -> Z.
Hypothesis G0 : gx 0 ==[q] 0.
Variables (p : prog) (c : collector) (f : factors) (tr : list gate) (pubs ins : list string).
Hypothesis HX : execute sort hash q p = Some (c, f, tr).
Hypothesis NC : no_collision tr.
Hypothesis HD : declared p pubs ins c.

Let V (x : string) : Prop := In x (prog_names p).
Lemma good_exec : Good V c tr /\ Forall (fac_in (Ko V c)) f.
Proof.
  destruct HD as [D1 [D2 [D3 D4]]]. apply (execute_good sort sort_perm hash q Hq gx V) with (p := p); auto.
  - intros C. now apply (proj2 (D3 _ C)).
  - intros x Hx. now apply prog_inputs.
  - apply D4, in_app_iff. left. destruct pubs; [discriminate|]. injection D2 as ->. now left.
Qed.
Lemma good_sys : (exists s, gates_to_r1cs pubs ins (gates c) false = Some s) /\ (exists s, gates_to_sparse_r1cs q pubs ins (gates c) false = Some s).
Proof.
  assert (HD' := HD). destruct HD' as [D1 [D2 [D3 D4]]].
  apply (good_r1cs q V pubs ins D1 (fun x Hx => proj1 (D3 x Hx)) false c tr (proj1 good_exec)); auto. now apply (declared_names p).
Qed.
Lemma read_names s W : gates_to_r1cs pubs ins (gates c) false = Some s -> List.length W = List.length (index_map s) ->
  map (read (index_map s) W) (wire_names pubs ins (gates c) false) = W.
Proof.
  intros E L. destruct (C27_numbering q pubs ins (gates c) false (declared_names _ _ _ _ HD)) as [N _].
  destruct (N s E) as [N1 [N2 N3]]. apply (nth_ext _ _ 0 0); [rewrite map_length; congruence|]. rewrite map_length. intros i Hi.
  destruct (nth_error (wire_names pubs ins (gates c) false) i) as [x|] eqn:Ex; [|apply nth_error_None in Ex; lia].
  rewrite (nth_indep _ 0 (read (index_map s) W x)) by now rewrite map_length.
  rewrite map_nth. rewrite (nth_error_nth _ _ _ Ex). unfold read. apply N3 in Ex. now rewrite Ex.
Qed.
End P.

Lemma Forall2_len {A B} (R : A -> B -> Prop) a b : Forall2 R a b -> List.length a = List.length b.
Proof. induction 1; cbn; congruence. Qed.

(** The system is generated, with one row per gate. *)
Theorem C58_generated : forall sort hash q, (forall l, Permutation (sort l) l) -> prime q ->
  forall p c f tr pubs ins, execute sort hash q p = Some (c, f, tr) -> no_collision tr -> declared p pubs ins c ->
  (exists s, gates_to_r1cs pubs ins (gates c) false = Some s /\ List.length (rows s) = List.length (gates c)) /\
  (exists s, gates_to_sparse_r1cs q pubs ins (gates c) false = Some s /\ List.length (rows s) = List.length (gates c)).
Proof.
  intros sort hash q HS Hq p c f tr pubs ins HX NC HD.
  destruct (good_sys sort HS hash q Hq (fun _ => 0) p c f tr pubs ins HX NC HD) as [[s E] [s' E']].
  split; [exists s|exists s']; split; auto.
  - unfold gates_to_r1cs in E. destruct (build_index _ _ _ _) as [[m sp]|]; [|discriminate]. unfold with_rand in E.
    destruct (all_some _ _) eqn:A; [|discriminate]. injection E as <-. apply all_some_Forall2 in A. cbn. symmetry. now apply Forall2_len in A.
  - unfold gates_to_sparse_r1cs in E'. destruct (build_index _ _ _ _) as [[m sp]|]; [|discriminate]. unfold with_rand in E'.
    destruct (all_some _ _) eqn:A; [|discriminate]. injection E' as <-. apply all_some_Forall2 in A. cbn. symmetry. now apply Forall2_len in A.
Qed.
Print Assumptions C58_generated.

(** A satisfying witness is a run of the program: its equalities hold and some wire is the result. *)
Theorem C58_sound : forall sort hash q gx, (forall l, Permutation (sort l) l) -> prime q -> gx 0 ==[q] 0 ->
  forall p c f tr pubs ins s, execute sort hash q p = Some (c, f, tr) -> no_collision tr -> declared p pubs ins c ->
  gates_to_r1cs pubs ins (gates c) false = Some s ->
  forall W, List.length W = List.length (index_map s) -> nth 0 W 0 = 1 -> Forall (row_ok q gx W) (rows s) ->
  no_zero_divisor q gx (read (index_map s) W) p ->
  Forall (fun e => exists a b, means q gx (read (index_map s) W) (fst e) a /\ means q gx (read (index_map s) W) (snd e) b /\ a ==[q] b) (equalities p) /\
  means q gx (read (index_map s) W) (result p) (lin (read (index_map s) W) f) /\
  (is_single_number f = true \/ exists i, (i < List.length W)%nat /\ means q gx (read (index_map s) W) (result p) (nth i W 0)).
Proof.
  intros sort hash q gx HS Hq G0 p c f tr pubs ins s HX NC HD E W L W0 HW [Z1 Z2].
  assert (Hq0 : q <> 0) by (destruct Hq; lia).
  destruct (good_exec sort HS hash q Hq gx p c f tr pubs ins HX NC HD) as [HG Hf].
  assert (R := read_names q p c pubs ins HD s W E L).
  assert (Hok := declared_names _ _ _ _ HD).
  set (a := read (index_map s) W) in *.
  assert (Ha : a "1"%string = 1).
  { destruct (C27_numbering q pubs ins (gates c) false Hok) as [N _]. destruct (N s E) as [_ [_ N3]].
    unfold a, read. assert (X : nth_error (wire_names pubs ins (gates c) false) 0 = Some "1"%string).
    { destruct HD as [_ [D2 _]]. destruct pubs; [discriminate|]. exact D2. }
    apply N3 in X. now rewrite X. }
  assert (HA : all_hold q gx a (gates c)).
  { apply (C28_system q gx a pubs ins (gates c) s Hq0 G0 Ha Hok); auto.
    - eapply wf_shape; eauto.
    - eapply good_distinct; eauto.
    - now rewrite R. }
  destruct (C56_sound sort hash q gx HS Hq p c f tr HX NC a HA Z1 Z2) as [S1 [S2 S3]]. split; auto. split; auto.
  destruct S3 as [S3|[o S3]]; auto.
  (* the result is the factor list f itself; find its wire *)
  destruct (execute_inv sort HS hash q Hq gx p c f tr HX) as [c1 [tr1 [c2 [tr2 [_ [_ [_ [G2 HC]]]]]]]].
  assert (Kn : forall x, Ko (fun x => In x (prog_names p)) c x -> exists i, (i < List.length W)%nat /\ nth i W 0 = a x).
  { intros x Hx. assert (HD' := HD). destruct HD' as [D1 [D2 [D3 D4]]].
    destruct (good_index (fun x => In x (prog_names p)) pubs ins D1 (fun y Hy => proj1 (D3 y Hy)) false c tr HG Hok D4) as [m [sp [EI [HK Hm]]]].
    assert (M : index_map s = m). { unfold gates_to_r1cs in E. rewrite EI in E. destruct (with_rand _ _ _); [|discriminate]. now injection E as <-. }
    specialize (HK x Hx). unfold a, read. rewrite M. destruct (im_get m x) as [i|] eqn:Ei; [|easy]. exists i. split; auto.
    rewrite L, M, (numbered_length _ _ Hm). apply (numbered_get _ _ _ _ Hm) in Ei. apply nth_error_Some. congruence. }
  destruct HC as [[Sn _]|[[[x [-> [Mx Nx]]] _]|[i [g [Eg [Et [Ni EC]]]]]]]; auto; right.
  - assert (F1 := Forall_inv Hf). destruct (Kn _ (F1 Nx)) as [i [Li Wi]]. exists i. split; auto. rewrite Wi.
    cbn [lin] in S2. rewrite fac_val_wire, Mx in S2 by auto. replace (1 * a (ident (ftok x)) + 0) with (a (ident (ftok x))) in S2 by ring. exact S2.
  - destruct (add_gate_facts sort hash q gx i f g Eg Ni) as [EW [Wg [Fg Hg]]].
    assert (HI := proj1 HG). subst tr.
    assert (Hh := Inv_holds q gx a c (tr2 ++ [g]) g HI NC HA (last_in tr2 g)).
    apply Hg in Hh. assert (Oi : Ko (fun x => In x (prog_names p)) c i).
    { right. destruct (collect_Inv sort hash q gx c2 tr2 g g _ c i (proj1 G2) EC EW (eq_sym Fg) Wg) as [_ [Ei [Hi _]]].
      assert (HG' := HG). destruct HG' as [[_ [gs [HG0 [HI0 [HK _]]]]] [HT _]]. apply HK in Hi. apply in_map_iff in Hi. destruct Hi as [g0 [E0 H0]].
      assert (S : same_gate g0 g). { apply NC; [auto|apply in_app_iff; right; now left|congruence]. }
      rewrite <- E0, <- finish_gid. apply out_names_in; [rewrite HG0; now apply in_map|].
      rewrite finish_gnonew. assert (X := proj1 (Forall_forall _ _) HT g0 (HI0 _ H0)). cbn in X. rewrite X, (proj1 S), Eg. reflexivity. }
    destruct (Kn _ Oi) as [j [Lj Wj]]. exists j. split; auto. rewrite Wj. now apply (means_cong q gx a (result p) (lin a f)).
Qed.
Print Assumptions C58_sound.

(** Inputs for which the equalities hold and no divisor is zero extend to a satisfying witness. *)
Theorem C58_complete : forall sort hash q gx, (forall l, Permutation (sort l) l) -> prime q -> gx 0 ==[q] 0 ->
  forall p c f tr pubs ins s, execute sort hash q p = Some (c, f, tr) -> no_collision tr -> declared p pubs ins c ->
  gates_to_r1cs pubs ins (gates c) false = Some s ->
  forall w, w "1"%string = 1 -> no_zero_divisor q gx w p ->
  Forall (fun e => forall a b, means q gx w (fst e) a -> means q gx w (snd e) b -> a ==[q] b) (equalities p) ->
  exists W, List.length W = List.length (index_map s) /\ nth 0 W 0 = 1 /\
    (forall x, In x (pubs ++ ins) -> read (index_map s) W x = w x) /\ Forall (row_ok q gx W) (rows s).
Proof.
  intros sort hash q gx HS Hq G0 p c f tr pubs ins s HX NC HD E w W1 [Z1 Z2] HE.
  assert (Hq0 : q <> 0) by (destruct Hq; lia). assert (HD' := HD). destruct HD' as [D1 [D2 [D3 D4]]].
  destruct (good_exec sort HS hash q Hq gx p c f tr pubs ins HX NC HD) as [HG Hf]. assert (Hok := declared_names _ _ _ _ HD).
  destruct (C56_complete sort hash q gx HS Hq p c f tr HX NC) with (w := w) as [w' [A1 A2]]; auto.
  { intros x Hx. apply D4. apply (D3 x). apply prog_inputs. exact Hx. }
  set (a := fun x => if existsb (String.eqb x) (out_names (gates c)) then w' x else w x).
  assert (Op : forall x, In x (pubs ++ ins) -> existsb (String.eqb x) (out_names (gates c)) = false).
  { intros x Hx. destruct (existsb _ _) eqn:X; auto. apply existsb_eqb in X. destruct (D4 x Hx). apply in_rev.
    destruct HG as [_ [_ [HM _]]]. rewrite <- HM. now apply out_names_incl. }
  assert (Ain : forall x, In x (pubs ++ ins) -> a x = w x) by (intros x Hx; unfold a; now rewrite Op).
  assert (I1 : In "1"%string (pubs ++ ins)). { apply in_app_iff. left. destruct pubs; [discriminate|]. injection D2 as ->. now left. }
  assert (Ha : a "1"%string = 1) by (rewrite Ain; auto).
  assert (HA : all_hold q gx a (gates c)).
  { unfold all_hold in *. rewrite Forall_forall in *. intros g Hg. specialize (A2 g Hg).
    assert (HG' := HG). destruct HG' as [HI [_ [_ [_ [_ [HL HN]]]]]]. assert (Lg := proj1 (Forall_forall _ _) HL g Hg). assert (Ng := proj1 (Forall_forall _ _) HN g Hg). cbn in Ng.
    assert (KK := proj1 (Forall_forall _ _) (Inv_kinds c tr HI) g Hg). cbn in KK.
    assert (X : forall x, Ko (fun x => In x (prog_names p)) c x -> a x = w' x).
    { intros x [Hx|Hx]; unfold a.
      - rewrite Op by (apply (D3 x); auto). symmetry. apply A1. now apply prog_inputs.
      - apply existsb_eqb in Hx. now rewrite Hx. }
    destruct Lg as [L1 [L2 [L3 L4]]]. unfold gate_holds in *.
    rewrite (lin_ext _ a w' (gleft g) X L1), (lin_ext _ a w' (gright g) X L2), (lin_ext _ a w' (gexp g) X L3), (lin_ext _ a w' (gout g) X L4).
    destruct (gtyp g); auto; try contradiction. rewrite X; auto. right. now apply out_names_in. }
  exists (map a (wire_names pubs ins (gates c) false)).
  destruct (C27_numbering q pubs ins (gates c) false Hok) as [N _]. destruct (N s E) as [N1 [N2 N3]].
  assert (Rd : forall x i, im_get (index_map s) x = Some i -> nth i (map a (wire_names pubs ins (gates c) false)) 0 = a x).
  { intros x i Hi. apply N3 in Hi. rewrite (nth_indep _ 0 (a x)) by (rewrite map_length; apply nth_error_Some; congruence).
    rewrite map_nth. f_equal. now apply nth_error_nth. }
  split; [rewrite map_length; auto|]. split.
  { rewrite (Rd "1"%string); auto. apply N3. destruct pubs; [discriminate|]. exact D2. }
  split.
  - intros x Hx. unfold read. assert (In x (wire_names pubs ins (gates c) false)).
    { unfold wire_names. rewrite !in_app_iff in *. destruct Hx as [Hx|Hx]; auto. destruct (fresh_in ins pubs x Hx); auto. }
    apply In_nth_error in H. destruct H as [i Hi]. apply N3 in Hi. rewrite Hi, (Rd x i Hi). now apply Ain.
  - apply (C28_system q gx a pubs ins (gates c) s Hq0 G0 Ha Hok); auto.
    + eapply wf_shape; eauto.
    + eapply good_distinct; eauto.
Qed.
Print Assumptions C58_complete.

(** The sparse system has the same solutions, if no number of the program is written like a wire. *)
Theorem C58_sparse : forall sort hash q gx, (forall l, Permutation (sort l) l) -> prime q -> gx 0 ==[q] 0 ->
  forall p c f tr pubs ins s d, execute sort hash q p = Some (c, f, tr) -> no_collision tr -> declared p pubs ins c ->
  Forall (numbers_apart (wire_names pubs ins (gates c) false)) (gates c) ->
  gates_to_r1cs pubs ins (gates c) false = Some d -> gates_to_sparse_r1cs q pubs ins (gates c) false = Some s ->
  forall W, List.length W = List.length (index_map d) -> nth 0 W 0 = 1 ->
  (Forall (row_ok q gx W) (rows d) <-> Forall (srow_ok q gx W) (rows s)).
Proof.
  intros sort hash q gx HS Hq G0 p c f tr pubs ins s d HX NC HD HN E Es W L W0.
  assert (Hq0 : q <> 0) by (destruct Hq; lia).
  destruct (good_exec sort HS hash q Hq gx p c f tr pubs ins HX NC HD) as [HG Hf].
  assert (R := read_names q p c pubs ins HD d W E L). assert (Hok := declared_names _ _ _ _ HD).
  set (a := read (index_map d) W) in *.
  assert (Ha : a "1"%string = 1).
  { destruct (C27_numbering q pubs ins (gates c) false Hok) as [N _]. destruct (N d E) as [_ [_ N3]].
    unfold a, read. assert (X : nth_error (wire_names pubs ins (gates c) false) 0 = Some "1"%string).
    { destruct HD as [_ [D2 _]]. destruct pubs; [discriminate|]. exact D2. }
    apply N3 in X. now rewrite X. }
  assert (Sh : Forall (gate_shape (wire_names pubs ins (gates c) false)) (gates c)) by (eapply wf_shape; eauto).
  assert (Ds : Forall gate_distinct (gates c)) by (eapply good_distinct; eauto).
  destruct (C28_dense q gx a pubs ins (gates c) false d Hq0 G0 Ha Hok Sh Ds E) as [r1 [e1 [X1 [F1 ->]]]].
  destruct (C28_sparse q gx a pubs ins (gates c) false s Hq0 G0 Ha Hok Sh HN Es) as [r2 [e2 [X2 [F2 ->]]]].
  rewrite app_nil_r in X1, X2. rewrite X1, X2. rewrite R in F1, F2. clear - F1 F2. revert r2 F2.
  induction F1 as [|g r gs rs H _ IH]; intros r2 F2; inversion F2 as [|? r' ? rs' H' F']; subst; [split; constructor|].
  rewrite !Forall_cons_iff, (IH rs' F'). tauto.
Qed.
Print Assumptions C58_sparse.

(** equal(x*y, z/y); return base(x) + 3*(y*x). *)
Definition C58_gx (k : Z) : Z := 7 * k.
Example C58_case : exists c f tr s d W, execute sort_factors toy_hash 101 C56_prog = Some (c, f, tr) /\ no_collision tr /\
  declared C56_prog ["1"; "z"]%string ["x"; "y"; "z"]%string c /\
  Forall (numbers_apart (wire_names ["1"; "z"]%string ["x"; "y"; "z"]%string (gates c) false)) (gates c) /\
  gates_to_r1cs ["1"; "z"]%string ["x"; "y"; "z"]%string (gates c) false = Some d /\
  gates_to_sparse_r1cs 101 ["1"; "z"]%string ["x"; "y"; "z"]%string (gates c) false = Some s /\
  List.length W = 8%nat /\ nth 0 W 0 = 1 /\ nth 1 W 0 = 18 /\ nth 2 W 0 = 2 /\ nth 3 W 0 = 3 /\
  Forall (row_ok 101 C58_gx W) (rows d) /\ Forall (srow_ok 101 C58_gx W) (rows s) /\
  no_zero_divisor 101 C58_gx (read (index_map d) W) C56_prog /\
  means 101 C58_gx (read (index_map d) W) (result C56_prog) (nth 7 W 0).
Proof.
  destruct (execute sort_factors toy_hash 101 C56_prog) as [[[c f] tr]|] eqn:E; [|vm_compute in E; discriminate].
  exists c, f, tr. assert (NC : no_collision tr). { apply no_collisionb_ok. vm_compute in E. injection E as _ _ <-. vm_compute. reflexivity. }
  destruct (gates_to_r1cs ["1"; "z"]%string ["x"; "y"; "z"]%string (gates c) false) as [d|] eqn:Ed; [|vm_compute in E; injection E as <- _ _; vm_compute in Ed; discriminate].
  destruct (gates_to_sparse_r1cs 101 ["1"; "z"]%string ["x"; "y"; "z"]%string (gates c) false) as [s|] eqn:Es; [|vm_compute in E; injection E as <- _ _; vm_compute in Es; discriminate].
  exists s, d, [1; 18; 2; 3; 6; 6; 14; 32].
  split; auto. split; auto. split.
  { split; [repeat constructor; cbn; intros H; nope H|]. split; [reflexivity|]. split.
    - intros x Hx. cbn in Hx. decompose [or] Hx; try contradiction; subst; (split; [cbn; auto 10|discriminate]).
    - intros x Hx. vm_compute in E. injection E as <- _ _. cbn in Hx. intros H. cbn in H. decompose [or] Hx; try contradiction; subst; nope H. }
  split.
  { vm_compute in E. injection E as <- _ _. unfold numbers_apart.
    repeat (apply Forall_cons; [intros g Hg Ng; cbn in Hg; decompose [or] Hg; subst; try discriminate; try contradiction|]). constructor. }
  split; auto. split; auto. split; [reflexivity|]. do 4 (split; [reflexivity|]).
  vm_compute in E. injection E as <- _ _. vm_compute in Ed. injection Ed as <-. vm_compute in Es. injection Es as <-.
  split. { cbn [rows]. repeat (apply Forall_cons; [unfold row_ok; apply cong_mod_iff; [lia|vm_compute; reflexivity]|]). constructor. }
  split. { cbn [rows]. repeat (apply Forall_cons; [unfold srow_ok; apply cong_mod_iff; [lia|vm_compute; reflexivity]|]). constructor. }
  split.
  - split; [constructor; [|constructor]|]; cbn [fst snd divisors_ok C56_prog equalities result]; repeat (split; try exact I); try discriminate;
      intros _ M; inversion M as [|? ? X| | | | |]; subst; destruct X as [k X]; cbn in X; lia.
  - cbn [C56_prog result index_map]. apply means_add with (a := 14) (b := 18).
    + apply means_base with (a := 2); [apply means_var; apply cong_eq; reflexivity|apply cong_eq; reflexivity].
    + apply means_mul with (a := 3) (b := 6); [apply means_num with (z := 3); [reflexivity|apply cong_eq; reflexivity]| |apply cong_eq; reflexivity].
      apply means_mul with (a := 3) (b := 2); try (apply means_var); apply cong_eq; reflexivity.
    + apply cong_eq. reflexivity.
Qed.
