(** C27-C29, C33: constraint systems. *)
Require Import ZArith Znumtheory NArith Lia Bool Permutation Ascii String List.
Require Import Verif.Cong Verif.FqModel Verif.FqSpec Verif.FqProofs Verif.AvlModel Verif.AvlProofs.
Require Import Verif.FactorModel Verif.FactorSpec Verif.FactorProofs Verif.PropsFactor Verif.PropsExpr.
Require Import Verif.R1csModel Verif.R1csSpec Verif.R1csProofs Verif.SplitProofs.
Import ListNotations.
Open Scope Z_scope.

Ltac nope H := cbn in H; decompose [or] H; solve [contradiction|discriminate|congruence].

(** ** C27 *)
(** The index map is the position in the list of all names; all names differ.  Both forms. *)
Definition numbers_names (m : imap) (names : list string) : Prop :=
  NoDup names /\ List.length m = List.length names /\
  forall x i, im_get m x = Some i <-> nth_error names i = Some x.

Theorem C27_numbering : forall q pubs ins gs rz, names_ok pubs ins gs rz ->
  (forall s, gates_to_r1cs pubs ins gs rz = Some s -> numbers_names (index_map s) (wire_names pubs ins gs rz)) /\
  (forall s, gates_to_sparse_r1cs q pubs ins gs rz = Some s -> numbers_names (index_map s) (wire_names pubs ins gs rz)).
Proof.
  intros q pubs ins gs rz Hn. assert (K : forall m sp, build_index pubs ins gs rz = Some (m, sp) -> numbers_names m (wire_names pubs ins gs rz)).
  { intros m sp E. destruct (system_names _ _ _ _ _ _ Hn E) as [Hm _]. split; [apply Hm|].
    split; [now apply numbered_length|]. intros. now apply numbered_get. }
  unfold gates_to_r1cs, gates_to_sparse_r1cs. destruct (build_index pubs ins gs rz) as [[m sp]|]; [|split; discriminate].
  split; intros s; destruct (with_rand _ _ _); try discriminate; intros [= <-]; cbn [index_map]; eauto.
Qed.
Print Assumptions C27_numbering.

(** The numbering aborts exactly when a gate output has the name of an input or another output. *)
Theorem C27_aborts_iff : forall pubs ins gs rz, NoDup pubs ->
  build_index pubs ins gs rz = None <-> ~ NoDup (pubs ++ fresh pubs ins ++ out_names gs).
Proof.
  intros pubs ins gs rz ND. assert (D := build_defined pubs ins gs rz ND).
  destruct (build_index pubs ins gs rz) as [r|].
  - split; [discriminate|]. intros C. exfalso. apply C, D. eauto.
  - split; auto. intros _ C. apply D in C. destruct C; discriminate.
Qed.
Print Assumptions C27_aborts_iff.

(** The split map lists, for every split wire, the indices of its bits, lowest first. *)
Theorem C27_split_map : forall pubs ins gs s, names_ok pubs ins gs false -> gates_to_r1cs pubs ins gs false = Some s ->
  NoDup (map fst (split_map s)) /\
  (forall x, map Some (sm_find (split_map s) x) = map (im_get (index_map s)) (bit_names gs x)) /\
  (forall x, In x (map fst (split_map s)) <-> bit_names gs x <> []).
Proof.
  intros pubs ins gs s Hn. unfold gates_to_r1cs, build_index.
  assert (H0 := numbered_inputs ins pubs _ (numbered_pubs pubs [] [] numbered_nil (proj1 Hn))).
  destruct (add_gates _ gs) as [[m sp]|] eqn:E; [|discriminate].
  destruct (add_gates_split gs _ _ [] _ _ H0 E (NoDup_nil _)) as [A [B C]].
  destruct (with_rand _ _ _); [|discriminate]. intros [= <-]. cbn [split_map index_map].
  split; auto. split; [apply B|]. intros x. rewrite C. cbn. tauto.
Qed.
Print Assumptions C27_split_map.

(** A public name declared twice. *)
Theorem C27_repeated_public_refuted : exists pubs ins s x y i, nth_error pubs 0 = Some "1"%string /\
  gates_to_r1cs pubs ins [] false = Some s /\ x <> y /\ im_get (index_map s) x = Some i /\ im_get (index_map s) y = Some i.
Proof.
  exists ["1"; "x"; "x"]%string, ["x"; "y"]%string. eexists. exists "x"%string, "y"%string, 2%nat.
  split; [reflexivity|]. split; [reflexivity|]. repeat split; discriminate.
Qed.
Print Assumptions C27_repeated_public_refuted.

(** z = x*y, z = g^y's coordinate, x = 0b01 + 0b10 ... a gate of every kind. *)
Definition demo_gates : list gate :=
  [ Gate GMul "z" [Fac (arg "x") 2] [Fac (arg "y") 1; Fac (Tok TNumber "3") 3] [] (wire "z" 1) false no_token;
    Gate GBit "0x" [] [] [] [] false (arg "x"); Gate GBit "1x" [] [] [] [] false (arg "x");
    Gate GSum "s" [Fac (arg "0x") 1; Fac (arg "1x") 2] [] [] [] true (arg "x");
    Gate GBase "b" [] [] [Fac (arg "y") 1] [] false no_token;
    Gate GAdd "t" [Fac (arg "z") 1; Fac (arg "b") 5] [] [] (wire "t" 1) false no_token;
    Gate GEqual "e" [Fac (arg "t") 1] [Fac (arg "z") 1; Fac (arg "b") 5] [] [] true no_token ].
Definition demo_assign (x : string) : Z :=
  if String.eqb x "1" then 1 else if String.eqb x "x" then 3 else if String.eqb x "y" then 4 else
  if String.eqb x "z" then 42 else if String.eqb x "0x" then 1 else if String.eqb x "1x" then 1 else
  if String.eqb x "b" then 7 else if String.eqb x "t" then 77 else if String.eqb x rand_in then 5 else 33.
Definition demo_gx (k : Z) : Z := 2 * k - Z.sgn k.
Definition demo_pubs : list string := ["1"; "y"]%string.
Definition demo_ins : list string := ["x"; "y"]%string.

Lemma demo_names_ok rz : names_ok demo_pubs demo_ins demo_gates rz.
Proof.
  split; [repeat constructor; cbn; intros H; nope H|]. split; [reflexivity|]. intros _.
  split; cbn; intros H; nope H.
Qed.
Lemma demo_shape rz : Forall (gate_shape (wire_names demo_pubs demo_ins demo_gates rz)) demo_gates.
Proof. repeat (apply Forall_cons; [cbn; auto 10|]). constructor. Qed.
Lemma demo_distinct : Forall gate_distinct demo_gates.
Proof.
  repeat (apply Forall_cons; [split; [|split; [|split]]; repeat constructor; cbn; intros H; nope H|]). constructor.
Qed.
Lemma demo_apart rz : Forall (numbers_apart (wire_names demo_pubs demo_ins demo_gates rz)) demo_gates.
Proof.
  assert (D : forall x, x = "3"%string -> ~ In x (wire_names demo_pubs demo_ins demo_gates rz)).
  { intros x -> H. destruct rz; cbn in H; nope H. }
  unfold numbers_apart.
  repeat (apply Forall_cons; [intros f Hf N; cbn in Hf; decompose [or] Hf; subst; try discriminate; try contradiction; try (right; apply D; reflexivity)|]).
  constructor.
Qed.

Example C27_case : exists s, gates_to_r1cs demo_pubs demo_ins demo_gates true = Some s /\
  wire_names demo_pubs demo_ins demo_gates true = ["1"; "y"; "x"; "z"; "0x"; "1x"; "b"; "t"; rand_in; rand_out]%string /\
  im_get (index_map s) "1x" = Some 5%nat /\ sm_find (split_map s) "x" = [4; 5]%nat.
Proof. eexists. split; [vm_compute; reflexivity|]. repeat split. Qed.

(** ** C28 *)
(** Row by row; a randomized system has one more row. *)
Theorem C28_dense : forall q gx a pubs ins gs rz s, q <> 0 -> gx 0 ==[q] 0 -> a "1"%string = 1 ->
  names_ok pubs ins gs rz -> Forall (gate_shape (wire_names pubs ins gs rz)) gs -> Forall gate_distinct gs ->
  gates_to_r1cs pubs ins gs rz = Some s ->
  let w := map a (wire_names pubs ins gs rz) in
  exists rs extra, rows s = rs ++ extra /\ Forall2 (fun g r => row_ok q gx w r <-> gate_holds q gx a g) gs rs /\
    if rz then exists r, extra = [r] /\ (row_ok q gx w r <-> a rand_in * a rand_in + gx (a rand_in mod q) ==[q] a rand_out)
    else extra = [].
Proof.
  intros q gx a pubs ins gs rz s Hq G0 Ha Hn Hs Hd E w.
  destruct (dense_system q gx a Hq G0 Ha pubs ins gs rz s Hn Hs Hd E) as [rs [A [B C]]]. exists rs. destruct rz.
  - destruct (C eq_refl) as [r [R1 R2]]. exists [r]. split; auto. split; auto. exists r. auto.
  - exists []. auto.
Qed.
Print Assumptions C28_dense.

(** The sparse rows add up repeated wires, so no distinctness is needed. *)
Theorem C28_sparse : forall q gx a pubs ins gs rz s, q <> 0 -> gx 0 ==[q] 0 -> a "1"%string = 1 ->
  names_ok pubs ins gs rz -> Forall (gate_shape (wire_names pubs ins gs rz)) gs ->
  Forall (numbers_apart (wire_names pubs ins gs rz)) gs ->
  gates_to_sparse_r1cs q pubs ins gs rz = Some s ->
  let w := map a (wire_names pubs ins gs rz) in
  exists rs extra, rows s = rs ++ extra /\ Forall2 (fun g r => srow_ok q gx w r <-> gate_holds q gx a g) gs rs /\
    if rz then exists r, extra = [r] /\ (srow_ok q gx w r <-> a rand_in * a rand_in + gx (a rand_in mod q) ==[q] a rand_out)
    else extra = [].
Proof.
  intros q gx a pubs ins gs rz s Hq G0 Ha Hn Hs Hd E w.
  destruct (sparse_system q gx a Hq G0 Ha pubs ins gs rz s Hn Hs Hd E) as [rs [A [B C]]]. exists rs. destruct rz.
  - destruct (C eq_refl) as [r [R1 R2]]. exists [r]. split; auto. split; auto. exists r. auto.
  - exists []. rewrite app_nil_r. auto.
Qed.
Print Assumptions C28_sparse.

(** A whole system is satisfied exactly when all gates hold. *)
Theorem C28_system : forall q gx a pubs ins gs s, q <> 0 -> gx 0 ==[q] 0 -> a "1"%string = 1 ->
  names_ok pubs ins gs false -> Forall (gate_shape (wire_names pubs ins gs false)) gs -> Forall gate_distinct gs ->
  gates_to_r1cs pubs ins gs false = Some s ->
  (Forall (row_ok q gx (map a (wire_names pubs ins gs false))) (rows s) <-> all_hold q gx a gs).
Proof.
  intros q gx a pubs ins gs s Hq G0 Ha Hn Hs Hd E.
  destruct (C28_dense q gx a pubs ins gs false s Hq G0 Ha Hn Hs Hd E) as [rs [ex [-> [F ->]]]]. rewrite app_nil_r.
  clear - F. unfold all_hold. revert F. generalize (map a (wire_names pubs ins gs false)). intros w F.
  induction F as [|g r gs' rs' H F IH]; [split; constructor|].
  rewrite !Forall_cons_iff. tauto.
Qed.
Print Assumptions C28_system.

(** The same wire twice in one list: the dense row keeps the last coefficient only. *)
Theorem C28_repeated_refuted : exists gs s a, gates_to_r1cs ["1"]%string ["x"; "y"]%string gs false = Some s /\
  names_ok ["1"]%string ["x"; "y"]%string gs false /\ a "1"%string = 1 /\
  Forall (gate_shape (wire_names ["1"]%string ["x"; "y"]%string gs false)) gs /\
  Forall (row_ok 101 demo_gx (map a (wire_names ["1"]%string ["x"; "y"]%string gs false))) (rows s) /\ ~ all_hold 101 demo_gx a gs.
Proof.
  exists [Gate GAdd "t" [Fac (arg "x") 1; Fac (arg "x") 1] [] [] (wire "y" 1) true no_token].
  eexists. exists (fun _ => 1). split; [vm_compute; reflexivity|].
  split. { split; [repeat constructor; cbn; tauto|]. split; [reflexivity|discriminate]. }
  split; [reflexivity|]. split; [repeat constructor|]. split.
  - repeat constructor. apply cong_eq. reflexivity.
  - intros H. inversion H as [|? ? C _]; subst. unfold gate_holds in C. cbn in C.
    apply cong_mod_iff in C; [vm_compute in C; discriminate|lia].
Qed.
Print Assumptions C28_repeated_refuted.

(** SPLIT of a number: its text is no wire, so the sum is compared with the constant one. *)
Theorem C28_split_number_refuted : exists gs s a, gates_to_r1cs ["1"]%string [] gs false = Some s /\
  names_ok ["1"]%string [] gs false /\ a "1"%string = 1 /\
  gs = [Gate GBit "05" [] [] [] [] false (Tok TNumber "5"); Gate GSum "s" (wire "05" 1) [] [] [] true (Tok TNumber "5")] /\
  Forall (row_ok 101 demo_gx (map a (wire_names ["1"]%string [] gs false))) (rows s) /\ ~ lin a (wire "05" 1) ==[101] 5.
Proof.
  eexists. eexists. exists (fun _ => 1). split; [|split; [|split; [|split; [reflexivity|]]]].
  - vm_compute. reflexivity.
  - split; [repeat constructor; cbn; tauto|]. split; [reflexivity|discriminate].
  - reflexivity.
  - split; [repeat constructor; apply cong_eq; reflexivity|].
    intros C. apply cong_mod_iff in C; [vm_compute in C; discriminate|lia].
Qed.
Print Assumptions C28_split_number_refuted.

Example C28_case : exists s t, gates_to_r1cs demo_pubs demo_ins demo_gates true = Some s /\
  gates_to_sparse_r1cs 101 demo_pubs demo_ins demo_gates true = Some t /\
  (101 <> 0) /\ demo_gx 0 ==[101] 0 /\ demo_assign "1" = 1 /\
  names_ok demo_pubs demo_ins demo_gates true /\
  Forall (gate_shape (wire_names demo_pubs demo_ins demo_gates true)) demo_gates /\ Forall gate_distinct demo_gates /\
  Forall (numbers_apart (wire_names demo_pubs demo_ins demo_gates true)) demo_gates /\
  all_hold 101 demo_gx demo_assign demo_gates /\ List.length (rows s) = 8%nat /\ List.length (rows t) = 8%nat.
Proof.
  eexists. eexists. split; [vm_compute; reflexivity|]. split; [vm_compute; reflexivity|]. split; [lia|].
  split; [apply cong_eq; reflexivity|]. split; [reflexivity|]. split; [apply demo_names_ok|]. split; [apply demo_shape|].
  split; [apply demo_distinct|]. split; [apply demo_apart|]. split; [|split; reflexivity].
  unfold all_hold, demo_gates. repeat (apply Forall_cons; [apply cong_mod_iff; [lia|vm_compute; reflexivity]|]). constructor.
Qed.

(** ** C29 *)
Theorem C29_agree : forall q pubs ins gs rz, q <> 0 -> names_ok pubs ins gs rz ->
  Forall (gate_shape (wire_names pubs ins gs rz)) gs -> Forall gate_distinct gs ->
  Forall (numbers_apart (wire_names pubs ins gs rz)) gs ->
  match gates_to_r1cs pubs ins gs rz, gates_to_sparse_r1cs q pubs ins gs rz with
  | Some d, Some s =>
      index_map d = index_map s /\ split_map d = split_map s /\
      Forall2 (fun rd rs => forall i,
        nth i (rl rd) 0 ==[q] lookup (rl rs) (N.of_nat i) /\ nth i (rr rd) 0 ==[q] lookup (rr rs) (N.of_nat i) /\
        nth i (re rd) 0 ==[q] lookup (re rs) (N.of_nat i) /\ nth i (ro rd) 0 ==[q] lookup (ro rs) (N.of_nat i))
        (rows d) (rows s)
  | None, None => True
  | _, _ => False
  end.
Proof.
  intros q pubs ins gs rz Hq Hn Hs Hd Ha. assert (H := systems_agree q pubs ins gs rz Hq Hn Hs Hd Ha).
  destruct (gates_to_r1cs pubs ins gs rz), (gates_to_sparse_r1cs q pubs ins gs rz); auto.
  destruct H as [A [B C]]. split; auto. split; auto. clear - C. induction C as [|d s ds ss H C IH]; constructor; auto.
  intros i. destruct H as [H1 [H2 [H3 H4]]]. split; [apply H1|]. split; [apply H2|]. split; [apply H3|apply H4].
Qed.
Print Assumptions C29_agree.

(** A number whose text is the name of a wire: the sparse form puts it on that wire. *)
Theorem C29_number_name_refuted : exists gs d s i, gates_to_r1cs ["1"]%string ["x"; "5"]%string gs false = Some d /\
  gates_to_sparse_r1cs 101 ["1"]%string ["x"; "5"]%string gs false = Some s /\ names_ok ["1"]%string ["x"; "5"]%string gs false /\
  Forall (gate_shape (wire_names ["1"]%string ["x"; "5"]%string gs false)) gs /\ Forall gate_distinct gs /\
  ~ Forall2 (fun rd rs => nth i (rl rd) 0 ==[101] lookup (rl rs) (N.of_nat i)) (rows d) (rows s).
Proof.
  exists [Gate GMul "z" [Fac (Tok TNumber "5") 5; Fac (arg "x") 1] (wire "x" 1) [] (wire "z" 1) false no_token].
  eexists. eexists. exists 2%nat. split; [vm_compute; reflexivity|]. split; [vm_compute; reflexivity|].
  split. { split; [repeat constructor; cbn; tauto|]. split; [reflexivity|discriminate]. }
  split; [repeat constructor|].
  split. { constructor; [|constructor]. split; [|split; [|split]]; repeat constructor; cbn; intros H; nope H. }
  intros H. inversion H as [|? ? ? ? C _]; subst. cbn in C. apply cong_mod_iff in C; [vm_compute in C; discriminate|lia].
Qed.
Print Assumptions C29_number_name_refuted.

(** The same wire twice: dense overwrites, sparse adds. *)
Theorem C29_repeated_refuted : exists gs d s i, gates_to_r1cs ["1"]%string ["x"]%string gs false = Some d /\
  gates_to_sparse_r1cs 101 ["1"]%string ["x"]%string gs false = Some s /\ names_ok ["1"]%string ["x"]%string gs false /\
  Forall (gate_shape (wire_names ["1"]%string ["x"]%string gs false)) gs /\ Forall (numbers_apart (wire_names ["1"]%string ["x"]%string gs false)) gs /\
  ~ Forall2 (fun rd rs => nth i (rl rd) 0 ==[101] lookup (rl rs) (N.of_nat i)) (rows d) (rows s).
Proof.
  exists [Gate GMul "z" [Fac (arg "x") 1; Fac (arg "x") 1] (wire "x" 1) [] (wire "z" 1) false no_token].
  eexists. eexists. exists 1%nat. split; [vm_compute; reflexivity|]. split; [vm_compute; reflexivity|].
  split. { split; [repeat constructor; cbn; tauto|]. split; [reflexivity|discriminate]. }
  split; [repeat constructor|].
  split. { constructor; [|constructor]. intros f Hf N. cbn in Hf. decompose [or] Hf; subst; try discriminate; contradiction. }
  intros H. inversion H as [|? ? ? ? C _]; subst. cbn in C. apply cong_mod_iff in C; [vm_compute in C; discriminate|lia].
Qed.
Print Assumptions C29_repeated_refuted.

Example C29_case : exists d s, gates_to_r1cs demo_pubs demo_ins demo_gates false = Some d /\
  gates_to_sparse_r1cs 101 demo_pubs demo_ins demo_gates false = Some s /\ names_ok demo_pubs demo_ins demo_gates false /\
  Forall (gate_shape (wire_names demo_pubs demo_ins demo_gates false)) demo_gates /\ Forall gate_distinct demo_gates /\
  Forall (numbers_apart (wire_names demo_pubs demo_ins demo_gates false)) demo_gates /\
  map (@rl _) (rows d) = [[3; 1; 0; 0; 0; 0; 0; 0]; [-1; 0; 0; 0; 1; 0; 0; 0]; [-1; 0; 0; 0; 0; 1; 0; 0];
                          [0; 0; 0; 0; 1; 2; 0; 0]; [0; 0; 0; 0; 0; 0; 0; 0]; [0; 0; 0; 1; 0; 0; 5; 0]; [0; 0; 0; 1; 0; 0; 5; 0]] /\
  map (fun r => ascending (rl r)) (rows s) = [[(0%N, 3); (1%N, 1)]; [(0%N, -1); (4%N, 1)]; [(0%N, -1); (5%N, 1)]; [(4%N, 1); (5%N, 2)]; []; [(3%N, 1); (6%N, 5)]; [(3%N, 1); (6%N, 5)]].
Proof.
  eexists. eexists. split; [vm_compute; reflexivity|]. split; [vm_compute; reflexivity|]. split; [apply demo_names_ok|].
  split; [apply demo_shape|]. split; [apply demo_distinct|]. split; [apply demo_apart|]. split; reflexivity.
Qed.

(** ** C33 *)
(** [n] is the number of binary digits of [q].  All bit gates and the sum gate are new (nothing was split before under the same name). *)
Definition binary_length (q : Z) (n : nat) : Prop := 2 ^ (Z.of_nat n - 1) <= q < 2 ^ Z.of_nat n.
Lemma binary_length_is q n : 0 < q -> binary_length q n -> Z.to_nat (bitlen q) = n.
Proof.
  intros Hq [A B]. unfold bitlen. destruct (Z.eqb_spec q 0); [lia|]. rewrite Z.abs_eq by lia.
  assert (X := Z.log2_spec q Hq). assert (Y := Z.log2_nonneg q).
  assert (Z.log2 q < Z.of_nat n) by (apply Z.log2_lt_pow2; lia).
  assert (Z.of_nat n - 1 <= Z.log2 q) by (apply Z.log2_le_pow2; lia). lia.
Qed.
Theorem C33_sound : forall sort hash q gx c x c' w, (forall l, Permutation (sort l) l) -> prime q ->
  compile_split sort hash q c [x] = Some c' -> forall n, binary_length q n ->
  List.length (gates c') = (List.length (gates c) + S n)%nat ->
  all_hold q gx w (gates c') ->
  (forall i, (i < n)%nat -> w (bit_name i (ident (ftok x))) ==[q] 0 \/ w (bit_name i (ident (ftok x))) ==[q] 1) /\
  zsum (map (fun i => 2 ^ Z.of_nat i * w (bit_name i (ident (ftok x)))) (seq 0 n)) ==[q] w (ident (ftok x)).
Proof.
  intros sort hash q gx c x c' w HS Hq E n HB. apply binary_length_is in HB; [|destruct Hq; lia]. subst n. intros HL H. destruct (split_gates sort hash HS q c x c' E HL) as [gsum [Eg [T [R L]]]].
  rewrite Eg in H. unfold all_hold in H. rewrite !Forall_app in H. destruct H as [_ [Hb Hs]]. split.
  - intros i Hi. rewrite Forall_forall in Hb. specialize (Hb (Gate GBit (bit_name i (ident (ftok x))) [] [] [] [] false (ftok x))).
    unfold gate_holds in Hb. cbn in Hb. apply (cong_integral q) in Hb; auto.
    + destruct Hb as [Hb|Hb]; auto. right. rewrite <- (Z.sub_add 1 (w _)), Hb. apply cong_eq; ring.
    + apply in_map_iff. exists i. split; auto. apply in_seq. lia.
  - inversion Hs as [|? ? C _]; subst. unfold gate_holds in C. rewrite T, R, L in C. unfold bit_sum in C. now rewrite lin_bit_sum in C.
Qed.
Print Assumptions C33_sound.

Lemma add_bits_new sort hash t is : forall c, NoDup is -> (forall i, bit_name i (ident t) <> EmptyString) -> (forall i, In i is -> ~ In (bit_name i (ident t)) (known c)) ->
  exists c', add_bits sort hash c t is = Some c' /\ gates c' = gates c ++ map (fun i => Gate GBit (bit_name i (ident t)) [] [] [] [] false t) is /\
    forall y, In y (known c') -> In y (known c) \/ exists i, In i is /\ y = bit_name i (ident t).
Proof.
  induction is as [|i is IH]; intros c ND NE H; cbn [add_bits map]; [exists c; split; [auto|split; [now rewrite app_nil_r|auto]]|].
  apply NoDup_cons_iff in ND. destruct ND as [N1 N2].
  assert (W : with_id sort hash (Gate GBit (bit_name i (ident t)) [] [] [] [] false t) = Some (Gate GBit (bit_name i (ident t)) [] [] [] [] false t)).
  { unfold with_id. cbn [gid]. specialize (NE i). destruct (bit_name i (ident t)); [now destruct NE|reflexivity]. }
  unfold collect. rewrite W. cbn [gid].
  assert (C : contains c (bit_name i (ident t)) = false).
  { unfold contains. apply not_true_is_false. intros C. apply existsb_exists in C. destruct C as [y [Hy Ey]]. apply String.eqb_eq in Ey. apply (H i); [now left|]. now rewrite Ey. }
  rewrite C. destruct (IH (Coll (gates c ++ [Gate GBit (bit_name i (ident t)) [] [] [] [] false t]) (bit_name i (ident t) :: known c)) N2 NE) as [c' [E1 [E2 E3]]].
  - intros j Hj [K|K]; [|now apply (H j); [right|]]. apply bit_name_inj in K. now subst.
  - exists c'. split; [exact E1|]. rewrite E2. cbn [gates]. split; [now rewrite <- app_assoc|].
    intros y Hy. apply E3 in Hy. destruct Hy as [[<-|Hy]|[j [Hj ->]]]; [right; exists i; split; [now left|reflexivity]|now left|right; exists j; split; [now right|reflexivity]].
Qed.
(** Splitting in a fresh program adds one bit gate per binary digit of the order, then the sum, unless its identifier is the name of a bit. *)
Theorem C33_gates : forall sort hash q x c n, 0 < q -> binary_length q n -> compile_split sort hash q (Coll [] []) [x] = Some c ->
  exists rest, gates c = map (fun i => Gate GBit (bit_name i (ident (ftok x))) [] [] [] [] false (ftok x)) (seq 0 n) ++ rest /\
    match rest with
    | [g] => gtyp g = GSum /\ grep g = ftok x /\ gnonew g = true
    | [] => exists g i, with_id sort hash (Gate GSum "" (bit_sum n (ident (ftok x))) [] [] [] true (ftok x)) = Some g /\ (i < n)%nat /\ gid g = bit_name i (ident (ftok x))
    | _ => False
    end.
Proof.
  intros sort hash q x c n H0 HB E. apply binary_length_is in HB; [|exact H0]. unfold compile_split in E. rewrite HB in E.
  destruct (add_bits_new sort hash (ftok x) (seq 0 n) (Coll [] []) (seq_NoDup n 0)) as [c1 [E1 [E2 E3]]]; [|intros i _ []|].
  { intros i C. unfold bit_name in C. assert (D := dec_nonempty (Z.of_nat i)). now destruct (dec (Z.of_nat i)). }
  rewrite E1 in E. cbn [gates app] in E2.
  destruct (collect sort hash c1 _ (fun g => g)) as [[c2 k]|] eqn:EC in E; [|discriminate]. injection E as <-.
  destruct (collect_inv sort hash _ _ _ _ _ EC) as [g' [W [K [[-> I]|[-> I]]]]].
  - exists []. rewrite app_nil_r. split; [exact E2|]. destruct (E3 _ I) as [[]|[i [Hi Ei]]]. apply in_seq in Hi. exists g', i. rewrite K. split; [exact W|]. split; [lia|exact Ei].
  - exists [g']. cbn [gates]. rewrite E2. split; [reflexivity|]. unfold with_id, set_id in W. cbn in W. revert W.
    repeat match goal with |- context [match ?o with _ => _ end] => destruct o; try discriminate end; intros [= <-]; auto.
Qed.
Print Assumptions C33_gates.

(** Every value below 2^n has a decomposition, so every element of the field. *)
Theorem C33_complete : forall sort hash q gx x c v n, (forall l, Permutation (sort l) l) -> binary_length q n ->
  compile_split sort hash q (Coll [] []) [x] = Some c -> List.length (gates c) = S n ->
  0 <= v < q \/ 0 < q /\ 0 <= v < 2 ^ Z.of_nat n ->
  exists w, w (ident (ftok x)) = v /\ all_hold q gx w (gates c).
Proof.
  intros sort hash q gx x c v n HS HB E HL Hv. assert (Hv' : 0 < q /\ 0 <= v < 2 ^ Z.of_nat n) by (destruct HB; lia). clear Hv. destruct Hv' as [H0 Hv].
  apply binary_length_is in HB; [|exact H0]. subst n. exists (bits_assign (ident (ftok x)) (Z.to_nat (bitlen q)) v v).
  split; [apply bits_assign_self|]. apply (bits_assign_holds sort hash HS q gx c x v v); auto; try reflexivity.
Qed.
Print Assumptions C33_complete.

(** Two decompositions of every v with v + q < 2^n, so of 0 in every field. *)
Theorem C33_two_decompositions : forall sort hash q gx x c v n, (forall l, Permutation (sort l) l) -> prime q -> binary_length q n ->
  compile_split sort hash q (Coll [] []) [x] = Some c -> List.length (gates c) = S n ->
  0 <= v -> v + q < 2 ^ Z.of_nat n ->
  exists w1 w2 i, w1 (ident (ftok x)) = v /\ w2 (ident (ftok x)) = v /\
    all_hold q gx w1 (gates c) /\ all_hold q gx w2 (gates c) /\
    (i < n)%nat /\ ~ w1 (bit_name i (ident (ftok x))) ==[q] w2 (bit_name i (ident (ftok x))).
Proof.
  intros sort hash q gx x c v n HS Hq HB E HL H0 Hv. assert (Q := prime_ge_2 q Hq). apply binary_length_is in HB; [|lia]. subst n.
  set (n := Z.to_nat (bitlen q)) in *.
  assert (exists i, (i < n)%nat /\ Z.testbit v (Z.of_nat i) <> Z.testbit (v + q) (Z.of_nat i)) as [i [Hi Hb]].
  { destruct (Forall_Exists_dec (fun i => Z.testbit v (Z.of_nat i) = Z.testbit (v + q) (Z.of_nat i)) (fun i => bool_dec _ _) (seq 0 n)) as [F|F].
    - exfalso. assert (S1 := bits_sum v n ltac:(lia)). assert (S2 := bits_sum (v + q) n ltac:(lia)).
      rewrite (zsum_map_ext _ (fun i => 2 ^ Z.of_nat i * Z.b2z (Z.testbit (v + q) (Z.of_nat i)))) in S1; [lia|].
      intros j Hj. rewrite Forall_forall in F. now rewrite F.
    - apply Exists_exists in F. destruct F as [i [Hi Hb]]. apply in_seq in Hi. exists i. split; [lia|auto]. }
  exists (bits_assign (ident (ftok x)) n v v), (bits_assign (ident (ftok x)) n (v + q) v), i.
  rewrite !bits_assign_self, !bits_assign_bit by auto. split; auto. split; auto.
  split. { apply (bits_assign_holds sort hash HS q gx c x v v); fold n; auto; try lia; try reflexivity. }
  split. { apply (bits_assign_holds sort hash HS q gx c x (v + q) v); fold n; auto; [lia|]. exists 1. ring. }
  split; auto. intros C. apply Hb. apply cong_canon_unique in C.
  - destruct (Z.testbit v _), (Z.testbit (v + q) _); cbn in C; congruence.
  - destruct (Z.testbit v _); cbn; lia.
  - destruct (Z.testbit (v + q) _); cbn; lia.
Qed.
Print Assumptions C33_two_decompositions.

Example C33_case : exists c, compile_split sort_factors toy_hash 101 (Coll [] []) (wire "x" 1) = Some c /\
  List.length (gates c) = 8%nat /\ binary_length 101 7 /\ (forall l, Permutation (sort_factors l) l) /\ prime 101 /\
  26 + 101 < 2 ^ Z.of_nat 7.
Proof.
  eexists. split; [vm_compute; reflexivity|]. split; [reflexivity|]. split; [split; [discriminate|reflexivity]|]. split; [apply sort_factors_perm|].
  split; [apply prime_101|reflexivity].
Qed.
