(** The dense solver on systems whose rows determine one wire each. *)
Require Import ZArith Znumtheory NArith Bool Lia Setoid Morphisms Permutation Ascii String List.
Require Import Verif.Cong Verif.FqModel Verif.FqSpec Verif.FqProofs Verif.PolyModel Verif.PolyProofs Verif.AvlModel.
Require Import Verif.FactorModel Verif.FactorSpec Verif.FactorProofs Verif.ExprModel Verif.ExprSpec Verif.ExprProofs.
Require Import Verif.R1csModel Verif.R1csSpec Verif.R1csProofs Verif.EndProofs Verif.SolveProofs.
Require Import Verif.WitnessModel Verif.WitnessSpec Verif.WitnessProofs.
Import ListNotations.
Open Scope Z_scope.

(** ** One row *)
Section Row.
Variable q : Z.
Hypothesis Hq : prime q.
Variable gx : Z -> Z.
Variable bm : bitmap.
Variable n : nat.

Definition sized (s : state) : Prop := List.length (wit s) = n /\ List.length (isset s) = n.
(** All wires of [v] are known and it sums up to [z]. *)
Definition known_vec (s : state) (v : list Z) (z : Z) : Prop :=
  List.length v = n /\ (forall i, nth i v 0 <> 0 -> B s i = true) /\ dot v (wit s) ==[q] z.
(** [v] is the unknown wire [x]. *)
Definition unit_vec (s : state) (v : list Z) (x : nat) : Prop :=
  List.length v = n /\ (x < n)%nat /\ nth x v 0 = 1 /\ (forall i, nth i v 0 <> 0 -> i = x) /\ B s x = false /\ bm_get bm x = None.

Lemma scan_known arr : forall j s, (j + List.length arr <= List.length (isset s))%nat ->
  (forall i, nth i arr 0 <> 0 -> B s (j + i) = true) -> scan bm j arr s = Some (arr, [], s).
Proof.
  induction arr as [|v arr IH]; intros j s L H; [reflexivity|]. cbn [scan List.length] in *.
  assert (IH' : scan bm (S j) arr s = Some (arr, [], s)).
  { apply IH; [lia|]. intros i Hi. replace (S j + i)%nat with (j + S i)%nat by lia. apply H. exact Hi. }
  rewrite IH'. destruct (Z.eqb_spec v 0) as [->|Hv]; [reflexivity|].
  assert (Hj : B s j = true). { rewrite <- (Nat.add_0_r j). apply H. exact Hv. }
  destruct (nth_error (isset s) j) as [b|] eqn:E; [|apply nth_error_None in E; lia]. apply nth_error_B in E. rewrite <- E, Hj. reflexivity.
Qed.
Lemma scan_unit arr : forall j x s, (j + List.length arr <= List.length (isset s))%nat -> (j <= x < j + List.length arr)%nat ->
  nth (x - j) arr 0 <> 0 -> (forall i, nth i arr 0 <> 0 -> (j + i = x)%nat) -> B s x = false -> bm_get bm x = None ->
  scan bm j arr s = Some (zeros (List.length arr), [x], s).
Proof.
  induction arr as [|v arr IH]; intros j x s L Hx Nx H Bx Mx; cbn [List.length] in *; [lia|]. cbn [scan].
  destruct (Nat.eq_dec x j) as [->|Hj].
  - rewrite Nat.sub_diag in Nx. cbn in Nx. destruct (Z.eqb_spec v 0); [easy|].
    destruct (nth_error (isset s) j) as [b|] eqn:E; [|apply nth_error_None in E; lia]. apply nth_error_B in E. rewrite <- E, Bx, Mx.
    assert (Z : forall i, nth i arr 0 = 0).
    { intros i. destruct (Z.eq_dec (nth i arr 0) 0); auto. specialize (H (S i) n1). lia. }
    rewrite scan_known; [|lia|intros i Hi; now rewrite Z in Hi].
    replace arr with (zeros (List.length arr)) at 1; [reflexivity|].
    apply (nth_ext _ _ 0 0); [apply zeros_length|]. intros i _. rewrite Z. apply nth_repeat.
  - replace v with 0; [cbn [Z.eqb]|].
    + replace (x - j)%nat with (S (x - S j)) in Nx by lia. cbn [nth] in Nx.
      rewrite (IH (S j) x s); auto; try lia. intros i Hi. specialize (H (S i) Hi). lia.
    + destruct (Z.eq_dec v 0); auto. specialize (H O n0). lia.
Qed.
Lemma kscan s v z : sized s -> known_vec s v z -> scan bm 0 v s = Some (v, [], s).
Proof. intros [_ S] [L [H _]]. apply scan_known; [lia|auto]. Qed.
Lemma uscan s v x : sized s -> unit_vec s v x -> scan bm 0 v s = Some (zeros n, [x], s).
Proof. intros [_ S] [L [A [N [H [Bx M]]]]]. rewrite (scan_unit v 0 x s); auto; try lia; [now rewrite L|rewrite Nat.sub_0_r; lia]. Qed.

Lemma q_big : 1 < q. Proof. destruct Hq; lia. Qed.
Lemma total_some v s : List.length v = List.length (wit s) -> total q v s = Ok (dot v (wit s) mod q).
Proof.
  intros L. destruct (total q v s) as [r| |] eqn:E.
  - apply (total_ok q v s r q_big) in E. now destruct E as [_ ->].
  - unfold total in E. destruct (fscalar_product _ _ _); discriminate.
  - unfold total in E. destruct (proj1 (fscalar_product_spec q v (wit s) q_big) L) as [x [Ex _]]. rewrite Ex in E. discriminate.
Qed.
Lemma dot_zeros k w : dot (zeros k) w = 0.
Proof. rewrite dot_nth. apply zsum_map_0. intros i _. unfold zeros. rewrite nth_repeat. ring. Qed.
Lemma ktotal s v z : sized s -> known_vec s v z -> total q v s = Ok (z mod q).
Proof.
  intros [S _] [L [_ E]]. rewrite total_some by lia. f_equal. apply cong_mod_iff in E; auto. destruct Hq; lia.
Qed.
Lemma ztotal s : sized s -> total q (zeros n) s = Ok 0.
Proof. intros [S _]. rewrite total_some by (rewrite zeros_length; lia). now rewrite dot_zeros, Z.mod_0_l by (destruct Hq; lia). Qed.
Lemma one_unit : ~ 1 ==[q] 0.
Proof. assert (H := q_big). intros C. apply cong_mod_iff in C; [|lia]. rewrite Z.mod_1_l, Z.mod_0_l in C by lia. discriminate. Qed.
Lemma fdiv_some a b : ~ b ==[q] 0 -> exists d, fdiv q a b = Some d /\ d * b ==[q] a.
Proof. intros H. destruct (fdiv_prime q a b Hq H) as [d [E [_ C]]]. eauto. Qed.
Lemma modq_nz z : ~ z ==[q] 0 -> (z mod q =? 0) = false.
Proof. intros H. apply Z.eqb_neq. intros C. apply H. apply cong_mod_iff; [destruct Hq; lia|]. rewrite C. symmetry. apply Z.mod_0_l. destruct Hq; lia. Qed.

Lemma row_left s r x zr ze zo : sized s -> unit_vec s (rl r) x -> known_vec s (rr r) zr -> known_vec s (re r) ze -> known_vec s (ro r) zo ->
  ~ zr ==[q] 0 -> exists v s', solve_row q gx bm r s = Ok s' /\ assign s x v = Some s' /\ v * zr ==[q] zo - gx (ze mod q).
Proof.
  intros S U KR KE KO Z. unfold solve_row. rewrite (uscan s (rl r) x S U). cbn [lift bind].
  rewrite (kscan s (rr r) zr S KR). cbn [lift bind]. rewrite (kscan s (re r) ze S KE). cbn [lift bind].
  rewrite (kscan s (ro r) zo S KO). cbn [lift bind List.length Nat.add Nat.ltb Nat.leb].
  rewrite (ktotal s _ _ S KR), (ktotal s _ _ S KO), (ktotal s _ _ S KE), (ztotal s S). cbn [bind]. rewrite (modq_nz _ Z).
  assert (Z' : ~ zr mod q ==[q] 0) by (rewrite cong_mod; auto).
  destruct (fdiv_some (fsub q (zo mod q) (gx (ze mod q))) (zr mod q) Z') as [d [-> Hd]]. cbn [lift bind].
  destruct U as [L [A [N [H [Bx M]]]]]. rewrite (nth_error_nth' (rl r) 0) by lia. rewrite N. cbn [lift bind].
  destruct (fdiv_some (fsub q d 0) 1 one_unit) as [v [-> Hv]]. cbn [lift bind].
  destruct (assign_ok s x v) as [s' E]; [destruct S; lia|destruct S; lia|]. rewrite E. exists v, s'. split; auto. split; auto.
  rewrite cong_mod in Hd. rewrite fsub_cong in Hd, Hv. rewrite cong_mod in Hd. rewrite Z.mul_1_r, Z.sub_0_r in Hv. now rewrite Hv.
Qed.
Lemma row_right s r x zl ze zo : sized s -> known_vec s (rl r) zl -> unit_vec s (rr r) x -> known_vec s (re r) ze -> known_vec s (ro r) zo ->
  ~ zl ==[q] 0 -> exists v s', solve_row q gx bm r s = Ok s' /\ assign s x v = Some s' /\ v * zl ==[q] zo - gx (ze mod q).
Proof.
  intros S KL U KE KO Z. unfold solve_row. rewrite (kscan s (rl r) zl S KL). cbn [lift bind].
  rewrite (uscan s (rr r) x S U). cbn [lift bind]. rewrite (kscan s (re r) ze S KE). cbn [lift bind].
  rewrite (kscan s (ro r) zo S KO). cbn [lift bind List.length Nat.add Nat.ltb Nat.leb].
  rewrite (ktotal s _ _ S KL), (ktotal s _ _ S KO), (ktotal s _ _ S KE), (ztotal s S). cbn [bind]. rewrite (modq_nz _ Z).
  assert (Z' : ~ zl mod q ==[q] 0) by (rewrite cong_mod; auto).
  destruct (fdiv_some (fsub q (zo mod q) (gx (ze mod q))) (zl mod q) Z') as [d [-> Hd]]. cbn [lift bind].
  destruct U as [L [A [N [H [Bx M]]]]]. rewrite (nth_error_nth' (rr r) 0) by lia. rewrite N. cbn [lift bind].
  destruct (fdiv_some (fsub q d 0) 1 one_unit) as [v [-> Hv]]. cbn [lift bind].
  destruct (assign_ok s x v) as [s' E]; [destruct S; lia|destruct S; lia|]. rewrite E. exists v, s'. split; auto. split; auto.
  rewrite cong_mod in Hd. rewrite fsub_cong in Hd, Hv. rewrite cong_mod in Hd. rewrite Z.mul_1_r, Z.sub_0_r in Hv. now rewrite Hv.
Qed.
Lemma row_out s r x zl zr ze : sized s -> known_vec s (rl r) zl -> known_vec s (rr r) zr -> known_vec s (re r) ze -> unit_vec s (ro r) x ->
  exists v s', solve_row q gx bm r s = Ok s' /\ assign s x v = Some s' /\ v ==[q] zl * zr + gx (ze mod q).
Proof.
  intros S KL KR KE U. unfold solve_row. rewrite (kscan s (rl r) zl S KL). cbn [lift bind].
  rewrite (kscan s (rr r) zr S KR). cbn [lift bind]. rewrite (kscan s (re r) ze S KE). cbn [lift bind].
  rewrite (uscan s (ro r) x S U). cbn [lift bind List.length Nat.add Nat.ltb Nat.leb].
  rewrite (ktotal s _ _ S KL), (ktotal s _ _ S KR), (ktotal s _ _ S KE), (ztotal s S). cbn [bind].
  destruct U as [L [A [N [H [Bx M]]]]]. rewrite (nth_error_nth' (ro r) 0) by lia. rewrite N. cbn [lift bind].
  destruct (fdiv_some (fsub q (fadd q (fmul q (zr mod q) (zl mod q)) (gx (ze mod q))) 0) 1 one_unit) as [v [-> Hv]]. cbn [lift bind].
  destruct (assign_ok s x v) as [s' E]; [destruct S; lia|destruct S; lia|]. rewrite E. exists v, s'. split; auto. split; auto.
  rewrite Z.mul_1_r in Hv. rewrite Hv. generalize (gx (ze mod q)). intros t. rewrite fsub_cong, fadd_cong, fmul_cong, !cong_mod. apply cong_eq. ring.
Qed.
Lemma row_check s r zl zr ze zo : sized s -> known_vec s (rl r) zl -> known_vec s (rr r) zr -> known_vec s (re r) ze -> known_vec s (ro r) zo ->
  zl * zr + gx (ze mod q) ==[q] zo -> solve_row q gx bm r s = Ok s.
Proof.
  intros S KL KR KE KO HE. unfold solve_row.
  rewrite (kscan s (rl r) zl S KL). cbn [lift bind].
  rewrite (kscan s (rr r) zr S KR). cbn [lift bind]. rewrite (kscan s (re r) ze S KE). cbn [lift bind].
  rewrite (kscan s (ro r) zo S KO). cbn [lift bind List.length Nat.add Nat.ltb Nat.leb].
  rewrite (kscan s (rl r) zl S KL). cbn [lift bind].
  rewrite (kscan s (rr r) zr S KR). cbn [lift bind]. rewrite (kscan s (re r) ze S KE). cbn [lift bind].
  rewrite (kscan s (ro r) zo S KO). cbn [lift bind].
  rewrite (ktotal s _ _ S KL), (ktotal s _ _ S KR), (ktotal s _ _ S KE), (ktotal s _ _ S KO). cbn [bind].
  replace (_ =? _) with true; auto. symmetry. apply Z.eqb_eq.
  assert (X : fadd q (fmul q (zr mod q) (zl mod q)) (gx (ze mod q)) ==[q] zo mod q).
  { rewrite fadd_cong, fmul_cong, (cong_mod q zo), <- HE. generalize (gx (ze mod q)). intros t. rewrite !cong_mod. apply cong_eq. ring. }
  assert (q0 := q_big). apply cong_canon_unique with q; auto; try (apply Z.mod_pos_bound; lia).
Qed.
End Row.

(** ** One gate *)
Section Gate.
Variable q : Z.
Hypothesis Hq : prime q.
Variable gx : Z -> Z.
Hypothesis G0 : gx 0 ==[q] 0.
Variables (names : list string) (m : imap).
Hypothesis Hm : numbered names m.
Hypothesis H1 : nth_error names 0 = Some "1"%string.
Variable a : assignment.
Hypothesis Ha : a "1"%string = 1.
Let n := List.length names.

(** The wires known in [s] are those of [D], with the values of [a]. *)
Definition matches (D : string -> Prop) (s : state) : Prop :=
  sized n s /\ forall i x, nth_error names i = Some x -> (B s i = true <-> D x) /\ (D x -> W s i ==[q] a x).

Lemma idx_get x : In x names -> nth_error names (im_idx m x) = Some x /\ (im_idx m x < n)%nat.
Proof.
  intros Hx. unfold im_idx. destruct (im_get m x) as [i|] eqn:E.
  - apply (numbered_get _ _ _ _ Hm) in E. split; auto. apply nth_error_Some. congruence.
  - apply (numbered_none _ _ _ Hm) in E. contradiction.
Qed.
Lemma get_in x : im_get m x <> None -> In x names.
Proof. intros H. destruct (in_dec string_dec x names); auto. apply (numbered_none _ _ _ Hm) in n0. contradiction. Qed.

Lemma dot_cong v w w' : (forall i, nth i v 0 <> 0 -> nth i w 0 ==[q] nth i w' 0) -> dot v w ==[q] dot v w'.
Proof.
  intros H. rewrite !dot_nth. apply zsum_map_cong. intros i _. destruct (Z.eq_dec (nth i v 0) 0) as [->|N]; [apply cong_eq; ring|].
  now rewrite (H i N).
Qed.
Lemma nth_map_names i x : nth_error names i = Some x -> nth i (map a names) 0 = a x.
Proof.
  intros E. rewrite (nth_indep _ 0 (a x)) by (rewrite map_length; apply nth_error_Some; congruence).
  rewrite map_nth. f_equal. now apply nth_error_nth.
Qed.

(** A vector whose terms are all known. *)
Lemma terms_known D s T v : matches D s -> dense_of T v -> List.length v = n ->
  (forall i, In i (map fst T) -> exists x, nth_error names i = Some x /\ D x) -> known_vec q n s v (tval T (map a names)).
Proof.
  intros [S M] [HF HT] L K. assert (X : forall i, nth i v 0 <> 0 -> exists x, nth_error names i = Some x /\ D x).
  { intros i Hi. apply K. destruct (in_dec Nat.eq_dec i (map fst T)); auto. rewrite HT, tsum_notin in Hi by auto. easy. }
  split; auto. split.
  - intros i Hi. destruct (X i Hi) as [x [Ex Dx]]. now apply (M i x Ex).
  - rewrite <- (dense_dot T v) by (split; auto). apply dot_cong. intros i Hi. destruct (X i Hi) as [x [Ex Dx]].
    rewrite (nth_map_names i x Ex). now apply (M i x Ex).
Qed.
Lemma vec_len fs : forall v v', insert_values m v fs = Some v' -> List.length v' = List.length v.
Proof.
  induction fs as [|f fs IH]; intros v v'; cbn [insert_values]; [now intros [= <-]|].
  destruct (insert_value m v f) as [v1|] eqn:E; [|discriminate]. intros E'. rewrite (IH _ _ E').
  unfold insert_value in E. destruct (is_number f); [|destruct (im_get m _); [|discriminate]]; apply array_set_some in E; apply E.
Qed.
Lemma vec_known D s fs v : matches D s -> D "1"%string -> slots_distinct fs -> vec m n fs = Some v -> Forall (fac_in D) fs ->
  known_vec q n s v (lin a fs).
Proof.
  intros M D1 SD E HF. assert (K := insert_values_known _ _ _ _ E).
  rewrite <- (tval_dterm names m Hm H1 a Ha fs K). apply (terms_known D); auto.
  - eapply vec_ok; eauto.
  - rewrite (vec_len _ _ _ E). apply zeros_length.
  - intros i Hi. rewrite map_map in Hi. apply in_map_iff in Hi. destruct Hi as [f [<- Hf]]. rewrite (dterm_slot names m Hm H1).
    exists (slot f). split; [apply idx_get, get_in; eapply slot_known; eauto|].
    unfold slot. destruct (is_number f) eqn:N; auto. rewrite Forall_forall in HF. now apply (HF f Hf).
Qed.
Lemma zeros_known s : sized n s -> known_vec q n s (zeros n) 0.
Proof.
  intros _. split; [apply zeros_length|]. split; [intros i Hi; unfold zeros in Hi; rewrite nth_repeat in Hi; easy|].
  rewrite dot_zeros. reflexivity.
Qed.
Lemma unit_known D s x v : matches D s -> D x -> In x names -> unit_at n (im_idx m x) = Some v -> known_vec q n s v (a x).
Proof.
  intros M Dx Ix E. assert (T := unit_dense n _ _ E).
  replace (a x) with (tval [(im_idx m x, 1)] (map a names)).
  - apply (terms_known D); auto.
    + unfold unit_at in E. apply array_set_some in E. rewrite (proj1 (proj2 E)). apply zeros_length.
    + cbn. intros i [<-|[]]. exists x. split; auto. now apply idx_get.
  - unfold tval. cbn [map zsum fst snd]. rewrite (nth_map_names _ x); [ring|]. now apply idx_get.
Qed.
Lemma unit_unknown D s x v bm : matches D s -> ~ D x -> In x names -> unit_at n (im_idx m x) = Some v -> bm_get bm (im_idx m x) = None ->
  unit_vec bm n s v (im_idx m x).
Proof.
  intros [S M] Dx Ix E Mx. assert (T := unit_dense n _ _ E). destruct (idx_get x Ix) as [Ex Lx].
  unfold unit_at in E. apply array_set_some in E. destruct E as [E1 [E2 E3]]. split; [rewrite E2; apply zeros_length|].
  split; auto. split; [now rewrite E3, Nat.eqb_refl|]. split; [|split; auto].
  - intros i. rewrite E3. destruct (Nat.eqb_spec i (im_idx m x)); auto. unfold zeros. rewrite nth_repeat. easy.
  - destruct (B s (im_idx m x)) eqn:Bx; auto. apply (M _ _ Ex) in Bx. contradiction.
Qed.
Lemma vec_wire x v : In x names -> vec m n (wire x 1) = Some v -> unit_at n (im_idx m x) = Some v.
Proof.
  intros Ix. unfold vec, wire. cbn [insert_values]. unfold insert_value. cbn [is_number ftok arg ttyp ttype_eqb ident mult].
  destruct (idx_get x Ix) as [Ex _]. unfold im_idx. apply (numbered_get _ _ _ _ Hm) in Ex. unfold im_idx in Ex.
  destruct (im_get m x) as [i|] eqn:E; [|apply (numbered_none _ _ _ Hm) in E; contradiction].
  unfold unit_at. change (is_number (Fac (arg x) 1)) with false. cbv iota. destruct (array_set _ _ _); auto.
Qed.

Lemma matches_assign D s x v s' : matches D s -> In x names -> assign s (im_idx m x) v = Some s' -> v ==[q] a x ->
  matches (fun y => D y \/ y = x) s'.
Proof.
  intros [[S1 S2] M] Ix E Ev. destruct (assign_spec _ _ _ _ E) as [_ [_ [L1 [L2 [HW HB]]]]]. split; [split; congruence|].
  intros i y Ey. destruct (idx_get x Ix) as [Ex _]. rewrite HW, HB. destruct (Nat.eqb_spec i (im_idx m x)) as [->|N].
  - rewrite Ex in Ey. injection Ey as <-. tauto.
  - destruct (M i y Ey) as [A C]. assert (y <> x).
    { intros ->. apply N. destruct Hm as [ND _]. rewrite NoDup_nth_error in ND. apply ND; [apply nth_error_Some; congruence|congruence]. }
    split; [rewrite A; tauto|]. intros [Dy|]; [auto|contradiction].
Qed.
Lemma matches_iff D D' s : (forall x, In x names -> (D x <-> D' x)) -> matches D s -> matches D' s.
Proof. intros H [S M]. split; auto. intros i x E. destruct (M i x E). rewrite <- (H x) by (eapply nth_error_In; eauto). auto. Qed.

(** The wire a gate has of its own. *)
Definition own (g : gate) (x : string) : Prop := gtyp g <> GEqual /\ x = gid g.

Lemma gate_step bm D s g r : matches D s -> D "1"%string -> gate_distinct g -> gate_shape names g -> gate_row m n g = Some r ->
  solvable D g -> gate_holds q gx a g -> div_ok q a g ->
  (gtyp g <> GEqual -> In (gid g) names /\ ~ D (gid g) /\ bm_get bm (im_idx m (gid g)) = None) ->
  exists s', solve_row q gx bm r s = Ok s' /\ matches (fun x => D x \/ own g x) s'.
Proof.
  intros M D1 SD Sh E SV GH DV OW. assert (S := proj1 M). destruct SD as [SL [SR [SE SO]]].
  assert (M0 : 0 mod q = 0) by (apply Z.mod_0_l; destruct Hq; lia).
  assert (I1 : In "1"%string names) by (eapply nth_error_In; eauto).
  assert (F : forall v s', gtyp g <> GEqual -> assign s (im_idx m (gid g)) v = Some s' -> v ==[q] a (gid g) -> matches (fun x => D x \/ own g x) s').
  { intros v s' T EA Ev. destruct (OW T) as [Ig _]. eapply matches_iff; [|exact (matches_assign D s (gid g) v s' M Ig EA Ev)]. intros x _. unfold own. tauto. }
  unfold gate_row in E. assert (P := swap_perm g). assert (PE := swap_empty g). destruct (swap_sides g) as [l r'].
  unfold solvable in SV. unfold gate_holds in GH. unfold gate_shape in Sh. unfold mk_row in E. destruct (gtyp g) eqn:T; try contradiction.
  - destruct (OW ltac:(discriminate)) as [Ig [Dg Mg]]. destruct SV as [Vr SV].
    destruct (vec m n l) as [vl|] eqn:El; [|discriminate]. destruct (vec m n r') as [vr|] eqn:Er; [|discriminate].
    destruct (vec m n (gout g)) as [vo|] eqn:Eo; [|discriminate]. injection E as <-.
    destruct SV as [[Vl Eg]|[Vo Eg]].
    + rewrite Eg in Eo. apply vec_wire in Eo; auto.
      assert (K : exists zl zr, known_vec q n s vl zl /\ known_vec q n s vr zr /\ zl * zr = lin a (gleft g) * lin a (gright g)).
      { destruct P as [[-> ->]|[-> ->]].
        - exists (lin a (gleft g)), (lin a (gright g)). split; [eapply vec_known; eauto|]. split; [eapply vec_known; eauto|reflexivity].
        - exists (lin a (gright g)), (lin a (gleft g)). split; [eapply vec_known; eauto|]. split; [eapply vec_known; eauto|ring]. }
      destruct K as [zl [zr [K1 [K2 K3]]]].
      destruct (row_out q Hq gx bm n s (Row vl vr (zeros n) vo) (im_idx m (gid g)) zl zr 0 S K1 K2 (zeros_known s S)) as [v [s' [R [EA Ev]]]].
      { eapply unit_unknown; eauto. }
      exists s'. split; auto. apply (F v s'); auto; [discriminate|]. rewrite Ev, M0, G0, K3, GH, Eg, lin_wire. apply cong_eq. ring.
    + assert (Nz : ~ lin a (gright g) ==[q] 0).
      { destruct (DV T) as [C|C]; auto. exfalso. rewrite C in Vo. apply Dg. apply (Forall_inv Vo). reflexivity. }
      assert (Ko := vec_known D s (gout g) vo M D1 SO Eo Vo). rewrite Eg, lin_wire in GH.
      destruct P as [[-> ->]|[-> ->]].
      * rewrite Eg in El. apply vec_wire in El; auto.
        destruct (row_left q Hq gx bm n s (Row vl vr (zeros n) vo) (im_idx m (gid g)) (lin a (gright g)) 0 (lin a (gout g)) S) as [v [s' [R [EA Ev]]]]; cbn [rl rr re ro]; auto.
        { eapply unit_unknown; eauto. } { eapply vec_known; eauto. } { now apply zeros_known. }
        exists s'. split; auto. apply (F v s'); auto; [discriminate|]. apply (cong_cancel q Hq (lin a (gright g)) v (a (gid g)) Nz).
        rewrite M0, G0, <- GH in Ev. rewrite (Z.mul_comm _ v), Ev. apply cong_eq. ring.
      * rewrite Eg in Er. apply vec_wire in Er; auto.
        destruct (row_right q Hq gx bm n s (Row vl vr (zeros n) vo) (im_idx m (gid g)) (lin a (gright g)) 0 (lin a (gout g)) S) as [v [s' [R [EA Ev]]]]; cbn [rl rr re ro]; auto.
        { eapply vec_known; eauto. } { eapply unit_unknown; eauto. } { now apply zeros_known. }
        exists s'. split; auto. apply (F v s'); auto; [discriminate|]. apply (cong_cancel q Hq (lin a (gright g)) v (a (gid g)) Nz).
        rewrite M0, G0, <- GH in Ev. rewrite (Z.mul_comm _ v), Ev. apply cong_eq. ring.
  - destruct (OW ltac:(discriminate)) as [Ig [Dg Mg]].
    destruct (vec m n (gexp g)) as [ve|] eqn:Ee; [|discriminate]. destruct (unit_at _ _) as [vo|] eqn:Eo; [|discriminate]. injection E as <-.
    destruct (row_out q Hq gx bm n s (Row (zeros n) (zeros n) ve vo) (im_idx m (gid g)) 0 0 (lin a (gexp g)) S) as [v [s' [R [EA Ev]]]]; cbn [rl rr re ro].
    { now apply zeros_known. } { now apply zeros_known. } { eapply vec_known; eauto. } { eapply unit_unknown; eauto. }
    exists s'. split; auto. apply (F v s'); auto; [discriminate|]. rewrite Ev, <- GH. apply cong_eq. ring.
  - destruct SV as [Vl Vr].
    destruct (vec m n l) as [vl|] eqn:El; [|discriminate]. destruct (unit_at n 0) as [v1|] eqn:E1; [|discriminate].
    destruct (vec m n r') as [vr|] eqn:Er; [|discriminate]. injection E as <-.
    assert (K : exists zl zr, known_vec q n s vl zl /\ known_vec q n s vr zr /\ zl ==[q] zr).
    { destruct P as [[-> ->]|[-> ->]].
      - exists (lin a (gleft g)), (lin a (gright g)). split; [eapply vec_known; eauto|]. split; [eapply vec_known; eauto|auto].
      - exists (lin a (gright g)), (lin a (gleft g)). split; [eapply vec_known; eauto|]. split; [eapply vec_known; eauto|now symmetry]. }
    destruct K as [zl [zr [K1 [K2 K3]]]]. exists s. split.
    + apply (row_check q Hq gx bm n s (Row vl v1 (zeros n) vr) zl (a "1"%string) 0 zr S K1); cbn [rl rr re ro]; auto.
      * eapply unit_known; eauto. now rewrite (idx_one names m Hm H1).
      * now apply zeros_known.
      * rewrite M0, G0, Ha, K3. apply cong_eq. ring.
    + eapply matches_iff; [|exact M]. intros x _. unfold own. rewrite T. tauto.
  - destruct (OW ltac:(discriminate)) as [Ig [Dg Mg]]. destruct SV as [Vl Eg]. injection (PE Sh) as -> ->.
    destruct (vec m n (gleft g)) as [vl|] eqn:El; [|discriminate]. destruct (unit_at n 0) as [v1|] eqn:E1; [|discriminate].
    destruct (vec m n (gout g)) as [vo|] eqn:Eo; [|discriminate]. injection E as <-. rewrite Eg in Eo. apply vec_wire in Eo; auto.
    destruct (row_out q Hq gx bm n s (Row vl v1 (zeros n) vo) (im_idx m (gid g)) (lin a (gleft g)) (a "1"%string) 0 S) as [v [s' [R [EA Ev]]]]; cbn [rl rr re ro].
    { eapply vec_known; eauto. } { eapply unit_known; eauto. now rewrite (idx_one names m Hm H1). } { now apply zeros_known. } { eapply unit_unknown; eauto. }
    exists s'. split; auto. apply (F v s'); auto; [discriminate|]. rewrite Ev, M0, G0, Ha, Z.mul_1_r, Z.add_0_r, GH, Eg, lin_wire. apply cong_eq. ring.
Qed.

Lemma NoDup_disjoint {A} (l l' : list A) : NoDup (l ++ l') -> forall x, In x l -> ~ In x l'.
Proof.
  induction l as [|y l IH]; intros H x; [easy|]. cbn in H. inversion H as [|? ? N1 N2]; subst. intros [->|Hx]; auto.
  intros C. apply N1, in_app_iff. auto.
Qed.
(** All gates, in order. *)
Lemma gates_step bm V gs : Ordered V gs -> Forall gate_distinct gs -> Forall (gate_shape names) gs ->
  all_hold q gx a gs -> Forall (div_ok q a) gs ->
  Forall (fun g => gnonew g = is_equal (gtyp g)) gs -> incl (out_names gs) names -> NoDup (out_names gs) ->
  (forall x, In x (out_names gs) -> bm_get bm (im_idx m x) = None) ->
  forall D : string -> Prop, (forall x, V x -> D x) -> D "1"%string -> (forall x, D x -> ~ In x (out_names gs)) ->
  forall pre post, gs = pre ++ post -> forall s rs, all_some (gate_row m n) post = Some rs -> matches (fun x => D x \/ In x (out_names pre)) s ->
  exists s', solve_rows q gx bm rs s = Ok s' /\ matches (fun x => D x \/ In x (out_names gs)) s'.
Proof.
  intros HO HD HS HA HV HN HI ND HB D VD D1 DN pre post. revert pre. induction post as [|g post IH]; intros pre E s rs ER M.
  - cbn in ER. injection ER as <-. exists s. split; auto. rewrite app_nil_r in E. now subst.
  - cbn [all_some] in ER. destruct (gate_row m n g) as [r|] eqn:Eg; [|discriminate].
    destruct (all_some (gate_row m n) post) as [rs'|] eqn:Ep; [|discriminate]. injection ER as <-.
    assert (Hg : In g gs) by (rewrite E; apply in_app_iff; right; now left).
    assert (Ng := proj1 (Forall_forall _ _) HN g Hg). cbn in Ng.
    assert (OE : gtyp g <> GEqual -> gnonew g = false). { intros T. rewrite Ng. destruct (gtyp g); auto. congruence. }
    destruct (gate_step bm _ s g r M) as [s1 [R1 M1]]; try (eapply Forall_forall; eauto; fail); auto.
    { assert (SV := HO pre g post E). unfold solvable in *. 
      assert (X : forall f, Forall (fac_in (Kp V pre)) f -> Forall (fac_in (fun x => D x \/ In x (out_names pre))) f).
      { intros f. apply fac_in_mono. intros x [Hx|Hx]; auto. }
      destruct (gtyp g); auto; intuition auto. }
    { intros T. assert (Io : In (gid g) (out_names gs)) by (apply out_names_in; auto). split; [auto|]. split; [|now apply HB].
      intros [C|C]; [now apply (DN _ C)|]. rewrite E in ND. rewrite out_names_app in ND.
      change (g :: post) with ([g] ++ post) in ND. rewrite out_names_app in ND. 
      apply (NoDup_disjoint _ _ ND (gid g) C). apply in_app_iff. left. apply out_names_in; [now left|auto]. }
    destruct (IH (pre ++ [g])) with (s := s1) (rs := rs') as [s2 [R2 M2]]; auto.
    { now rewrite <- app_assoc. }
    { eapply matches_iff; [|exact M1]. intros x _. rewrite out_names_app, in_app_iff. unfold own, out_names at 3. cbn [filter].
      rewrite Ng. destruct (gtyp g); cbn; intuition congruence. }
    exists s2. split; auto. cbn [solve_rows]. rewrite R1. exact R2.
Qed.
End Gate.
