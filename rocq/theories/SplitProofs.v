(** SPLIT: names of bits, soundness, and two decompositions of small values. *)
Require Import ZArith Znumtheory Lia Bool Permutation DecimalString DecimalFacts DecimalPos DecimalZ Ascii String List.
Require Import Verif.Cong Verif.FqModel Verif.FqSpec Verif.FqProofs Verif.FactorModel Verif.FactorSpec Verif.FactorProofs.
Import ListNotations.
Open Scope Z_scope.

Lemma to_int_nonnil z : Z.to_int z <> Decimal.Pos Decimal.Nil /\ Z.to_int z <> Decimal.Neg Decimal.Nil.
Proof.
  destruct z as [|p|p]; cbn; split; try discriminate; intros [= H]; now apply (Unsigned.to_uint_nonnil p).
Qed.
Lemma dec_inj a b : dec a = dec b -> a = b.
Proof.
  unfold dec. intros H. apply (f_equal NilZero.int_of_string) in H.
  destruct (to_int_nonnil a) as [A1 A2], (to_int_nonnil b) as [B1 B2].
  rewrite !NilZero.isi in H by auto. injection H as H. apply (f_equal Z.of_int) in H. now rewrite !DecimalZ.of_to in H.
Qed.
Lemma dec_nonempty a : dec a <> EmptyString.
Proof.
  unfold dec. intros H. destruct (to_int_nonnil a) as [A1 A2]. apply (f_equal NilZero.int_of_string) in H.
  rewrite NilZero.isi in H by auto. discriminate.
Qed.
Lemma append_length a b : String.length (a ++ b) = (String.length a + String.length b)%nat.
Proof. induction a; cbn; auto. Qed.
Lemma append_cancel_r a : forall b x, (a ++ x = b ++ x)%string -> a = b.
Proof.
  induction a as [|c a IH]; intros b x H.
  - destruct b; auto. apply (f_equal String.length) in H. cbn in H. rewrite append_length in H. lia.
  - destruct b as [|d b].
    + apply (f_equal String.length) in H. cbn in H. rewrite append_length in H. lia.
    + cbn in H. injection H as -> H. f_equal. eauto.
Qed.
Lemma bit_name_inj i j x : bit_name i x = bit_name j x -> i = j.
Proof. unfold bit_name. intros H. apply append_cancel_r in H. apply dec_inj in H. lia. Qed.
Lemma bit_name_other i x : bit_name i x <> x.
Proof.
  unfold bit_name. intros H. apply (f_equal String.length) in H. rewrite append_length in H.
  assert (N := dec_nonempty (Z.of_nat i)). destruct (dec (Z.of_nat i)); [easy|]. cbn in H. lia.
Qed.

Section Split.
Variable sort : factors -> factors.
Variable hash : string -> Z.
Hypothesis sort_perm : forall l, Permutation (sort l) l.
Variables (q : Z) (gx : Z -> Z).

Lemma add_bits_spec t is : forall c c', add_bits sort hash c t is = Some c' ->
  (List.length (gates c) <= List.length (gates c') <= List.length (gates c) + List.length is)%nat /\
  (List.length (gates c') = (List.length (gates c) + List.length is)%nat ->
     gates c' = gates c ++ map (fun i => Gate GBit (bit_name i (ident t)) [] [] [] [] false t) is) /\
  (forall g, In g (gates c) -> In g (gates c')).
Proof.
  induction is as [|i is IH]; intros c c'; cbn [add_bits List.length map].
  - intros [= <-]. rewrite app_nil_r. split; [lia|]. auto.
  - destruct (collect _ _ _ _ _) as [[c1 k]|] eqn:E; [|discriminate]. intros E'.
    destruct (collect_inv _ _ _ _ _ _ _ E) as [g' [W [<- C]]].
    assert (g' = Gate GBit (bit_name i (ident t)) [] [] [] [] false t) as ->.
    { unfold with_id in W. cbn [gid] in W. unfold bit_name in *. destruct (dec (Z.of_nat i)) eqn:D.
      - now apply dec_nonempty in D.
      - cbn in W. injection W as <-. reflexivity. }
    destruct (IH _ _ E') as [L [A B]]. destruct C as [[-> _]|[-> _]].
    + split; [lia|]. split; [intros; lia|auto].
    + cbn [gates] in *. rewrite app_length in *. cbn [List.length] in *. split; [lia|]. split.
      * intros Hl. rewrite A by lia. rewrite <- app_assoc. reflexivity.
      * intros g Hg. apply B. apply in_or_app; auto.
Qed.

Lemma split_gates c x c' : compile_split sort hash q c [x] = Some c' ->
  let n := Z.to_nat (bitlen q) in
  List.length (gates c') = (List.length (gates c) + S n)%nat ->
  exists gsum, gates c' = gates c ++ map (fun i => Gate GBit (bit_name i (ident (ftok x))) [] [] [] [] false (ftok x)) (seq 0 n) ++ [gsum] /\
    gtyp gsum = GSum /\ grep gsum = ftok x /\ forall w, lin w (gleft gsum) = lin w (bit_sum n (ident (ftok x))).
Proof.
  intros E n HL. unfold compile_split in E. fold n in E. destruct (add_bits _ _ _ _ _) as [c1|] eqn:E1; [|discriminate].
  destruct (collect _ _ _ _ _) as [[c2 k]|] eqn:E2; [|discriminate]. injection E as <-.
  destruct (add_bits_spec _ _ _ _ E1) as [L [A B]]. rewrite seq_length in *.
  destruct (collect_inv _ _ _ _ _ _ _ E2) as [g' [W [<- [[-> _]|[-> _]]]]]; [lia|].
  cbn [gates] in *. rewrite app_length in HL. cbn [List.length] in HL. rewrite A by lia.
  exists g'. rewrite <- app_assoc. split; auto.
  assert (T := fun w => with_id_lin sort sort_perm hash w _ _ W). cbn in T.
  destruct (T (fun _ => 0)) as [T1 [_ [_ [_ [_ T6]]]]]. split; auto. split; auto. intros w. apply T.
Qed.

Lemma lin_bit_sum w x n k : lin w (map (fun i => Fac (arg (bit_name i x)) (2 ^ Z.of_nat i)) (seq k n)) =
  zsum (map (fun i => 2 ^ Z.of_nat i * w (bit_name i x)) (seq k n)).
Proof. revert k. induction n as [|n IH]; intros k; cbn [seq map lin zsum]; [reflexivity|]. rewrite IH. reflexivity. Qed.

Lemma bits_sum v n : 0 <= v < 2 ^ Z.of_nat n ->
  zsum (map (fun i => 2 ^ Z.of_nat i * Z.b2z (Z.testbit v (Z.of_nat i))) (seq 0 n)) = v.
Proof.
  revert v. induction n as [|n IH]; intros v Hv; cbn [seq map zsum].
  - cbn in Hv. lia.
  - rewrite <- seq_shift, map_map. rewrite Nat2Z.inj_succ, Z.pow_succ_r in Hv by lia.
    transitivity (Z.b2z (Z.odd v) + 2 * zsum (map (fun i => 2 ^ Z.of_nat i * Z.b2z (Z.testbit (v / 2) (Z.of_nat i))) (seq 0 n))).
    + f_equal; [change (Z.of_nat 0) with 0; rewrite Z.bit0_odd; cbn [Z.pow]; destruct (Z.odd v); reflexivity|].
      rewrite <- zsum_map_scale. apply zsum_map_ext. intros i _. rewrite Nat2Z.inj_succ, Z.pow_succ_r by lia.
      rewrite Z.div2_bits by lia. ring.
    + rewrite IH.
      * rewrite <- Z.div2_div. rewrite (Z.div2_odd v) at 3. lia.
      * split; [apply Z.div_pos; lia|]. apply Z.div_lt_upper_bound; lia.
Qed.

(** The assignment that decomposes [u] and gives [v] to the split wire itself. *)
Definition bits_assign (x : string) (n : nat) (u v : Z) : assignment := fun y =>
  match find (fun i => String.eqb y (bit_name i x)) (seq 0 n) with
  | Some i => Z.b2z (Z.testbit u (Z.of_nat i))
  | None => v
  end.
Lemma bits_assign_bit x n u v i : (i < n)%nat -> bits_assign x n u v (bit_name i x) = Z.b2z (Z.testbit u (Z.of_nat i)).
Proof.
  intros H. unfold bits_assign. destruct (find _ (seq 0 n)) as [j|] eqn:E.
  - apply find_some in E. destruct E as [_ E]. apply String.eqb_eq in E. apply bit_name_inj in E. now subst.
  - eapply find_none in E; [|apply in_seq; split; [|cbn; exact H]; lia]. rewrite String.eqb_refl in E. discriminate.
Qed.
Lemma bits_assign_self x n u v : bits_assign x n u v x = v.
Proof.
  unfold bits_assign. destruct (find _ (seq 0 n)) as [j|] eqn:E; auto. apply find_some in E. destruct E as [_ E].
  apply String.eqb_eq in E. symmetry in E. now apply bit_name_other in E.
Qed.

Lemma bits_assign_holds c x u v : compile_split sort hash q (Coll [] []) [x] = Some c ->
  List.length (gates c) = S (Z.to_nat (bitlen q)) ->
  0 <= u < 2 ^ Z.of_nat (Z.to_nat (bitlen q)) -> u ==[q] v ->
  all_hold q gx (bits_assign (ident (ftok x)) (Z.to_nat (bitlen q)) u v) (gates c).
Proof.
  intros E HL Hu Hv. destruct (split_gates _ _ _ E HL) as [gsum [-> [T [R L]]]]. cbn [gates app].
  unfold all_hold. apply Forall_app. split.
  - apply Forall_forall. intros g Hg. apply in_map_iff in Hg. destruct Hg as [i [<- Hi]]. apply in_seq in Hi.
    unfold gate_holds. cbn. rewrite bits_assign_bit by lia. destruct (Z.testbit u _); cbn; apply cong_eq; reflexivity.
  - constructor; [|constructor]. unfold gate_holds. rewrite T, R, L, bits_assign_self. unfold bit_sum. rewrite lin_bit_sum.
    rewrite (zsum_map_ext _ (fun i => 2 ^ Z.of_nat i * Z.b2z (Z.testbit u (Z.of_nat i)))).
    + rewrite bits_sum by auto. auto.
    + intros i Hi. apply in_seq in Hi. rewrite bits_assign_bit by lia. reflexivity.
Qed.
End Split.
