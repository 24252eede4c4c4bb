(** The dense solver on systems with bit decompositions. *)
Require Import ZArith Znumtheory NArith Lia Bool Permutation Ascii String List.
Require Import Verif.Cong Verif.FqModel Verif.FqSpec Verif.FqProofs Verif.FactorModel Verif.FactorSpec Verif.FactorProofs.
Require Import Verif.ExprModel Verif.ExprSpec Verif.ExprProofs Verif.ExprProofs2 Verif.AvlModel Verif.PolyModel Verif.PolyProofs.
Require Import Verif.R1csModel Verif.R1csSpec Verif.R1csProofs Verif.EndProofs.
Require Import Verif.WitnessModel Verif.WitnessSpec Verif.WitnessProofs Verif.SolveProofs Verif.SolveProofs2 Verif.SolveRange.
Require Import Verif.PropsR1cs Verif.PropsSolve.
Import ListNotations.
Open Scope Z_scope.

(** The wires of [g] that its row needs are in [K]: a bit needs the wire it is a bit of, a sum needs the bits too. *)
Definition ready (K : string -> Prop) (g : gate) : Prop :=
  match gtyp g with
  | GBit => K (ident (grep g))
  | GSum => Forall (fac_in K) (gleft g) /\ K (ident (grep g))
  | _ => solvable K g
  end.
Definition in_order (V : string -> Prop) (gs : list gate) : Prop :=
  forall pre g post, gs = pre ++ g :: post -> ready (Kp V pre) g.
Definition adds_no_wire (t : gkind) : bool := match t with GEqual | GSum => true | _ => false end.
(** The bits of a wire are the binary digits of its value. *)
Definition digits (a : assignment) (gs : list gate) : Prop :=
  forall x i b, nth_error (bit_names gs x) i = Some b -> a b = if Z.testbit (a x) (Z.of_nat i) then 1 else 0.
Definition is_bit_name (gs : list gate) (x : string) : Prop := exists g, In g gs /\ gtyp g = GBit /\ gid g = x.
Definition canon (q v : Z) : Prop := 0 <= v < q.

Lemma ready_mono (K K' : string -> Prop) g : (forall x, K x -> K' x) -> ready K g -> ready K' g.
Proof.
  intros H. assert (F : forall fs, Forall (fac_in K) fs -> Forall (fac_in K') fs) by (intros fs; now apply fac_in_mono).
  unfold ready, solvable. destruct (gtyp g); intuition auto.
Qed.
Lemma out_unique gs : NoDup (out_names gs) -> forall g g', In g gs -> In g' gs -> gnonew g = false -> gnonew g' = false -> gid g = gid g' -> g = g'.
Proof.
  unfold out_names. induction gs as [|h gs IH]; intros ND g g' Hg Hg' N N' E; [easy|]. cbn [filter] in ND.
  assert (T : forall k, In k gs -> gnonew k = false -> In (gid k) (map gid (filter (fun g => negb (gnonew g)) gs))).
  { intros k Hk Nk. apply in_map, filter_In. rewrite Nk. auto. }
  destruct Hg as [<-|Hg], Hg' as [<-|Hg']; auto.
  - rewrite N in ND. cbn in ND. inversion ND as [|? ? N1 _]; subst. exfalso. apply N1. rewrite E. now apply T.
  - rewrite N' in ND. cbn in ND. inversion ND as [|? ? N1 _]; subst. exfalso. apply N1. rewrite <- E. now apply T.
  - apply IH; auto. destruct (negb (gnonew h)); auto. cbn in ND. now inversion ND.
Qed.
Lemma bit_names_in gs k i x : nth_error (bit_names gs k) i = Some x -> exists g, In g gs /\ gtyp g = GBit /\ gnonew g = false /\ ident (grep g) = k /\ gid g = x.
Proof.
  intros H. apply nth_error_In in H. unfold bit_names in H. apply in_map_iff in H. destruct H as (g & E & H). apply filter_In in H. destruct H as [H P].
  destruct (gtyp g) eqn:T; try discriminate. apply andb_true_iff in P. destruct P as [P1 P2]. apply String.eqb_eq in P2. exists g. split; [auto|]. split; [auto|]. split; [|auto].
  now destruct (gnonew g).
Qed.
Lemma note_bits_has zs : forall b f pos j, In j zs \/ bm_get b j <> None -> bm_get (note_bits b f pos zs) j <> None.
Proof.
  induction zs as [|z zs IH]; intros b f pos j H; cbn [note_bits]; [now destruct H|]. apply IH. cbn [bm_get]. destruct (Nat.eqb_spec z j); [right; discriminate|].
  destruct H as [[H|H]|H]; auto.
Qed.
Lemma note_bits_at zs : forall b f pos j p f', bm_get (note_bits b f pos zs) j = Some (p, f') ->
  bm_get b j = Some (p, f') \/ f' = f /\ exists i, p = (pos + i)%nat /\ nth_error zs i = Some j.
Proof.
  induction zs as [|z zs IH]; intros b f pos j p f' H; cbn [note_bits] in H; auto. destruct (IH _ _ _ _ _ _ H) as [E|(E & i & E1 & E2)].
  - cbn [bm_get] in E. destruct (Nat.eqb_spec z j) as [->|]; auto. injection E as <- <-. right. split; auto. exists O. split; [lia|reflexivity].
  - right. split; auto. exists (S i). split; [lia|exact E2].
Qed.

Section Bits.
Variable q : Z.
Hypothesis Hq : prime q.
Variable gx : Z -> Z.
Hypothesis G0 : gx 0 ==[q] 0.
Variables (names : list string) (m : imap).
Hypothesis Hm : numbered names m.
Hypothesis H1 : nth_error names 0 = Some "1"%string.
Variable a : assignment.
Hypothesis Ha : a "1"%string = 1.
Hypothesis Ca : forall x, canon q (a x).
Notation n := (List.length names).
Notation matches := (matches q names a).

Lemma exact_value D s x : matches D s -> Forall (canon q) (wit s) -> D x -> In x names -> nth_error (wit s) (im_idx m x) = Some (a x).
Proof using Hm Ca.
  intros [[S1 S2] M] C Dx Ix. destruct (idx_get names m Hm x Ix) as [Ex Lx]. destruct (M _ _ Ex) as [_ E]. specialize (E Dx).
  destruct (nth_error (wit s) (im_idx m x)) as [v|] eqn:Ev; [|apply nth_error_None in Ev; lia]. f_equal.
  assert (Cv := proj1 (Forall_forall _ _) C v (nth_error_In _ _ Ev)). apply (nth_error_nth _ _ 0) in Ev. unfold W in E. rewrite Ev in E.
  destruct Cv. destruct (Ca x). apply cong_canon_unique with q; auto.
Qed.

Lemma scan_bit bm arr : forall j x s pos f v s1, (j + List.length arr <= List.length (isset s))%nat -> (j <= x < j + List.length arr)%nat ->
  nth (x - j) arr 0 <> 0 -> (forall i, nth i arr 0 <> 0 -> (j + i)%nat = x \/ B s (j + i) = true) -> B s x = false ->
  bm_get bm x = Some (pos, f) -> nth_error (wit s) f = Some v -> assign s x (bit_of v pos) = Some s1 -> exists k, scan bm j arr s = Some (k, [], s1).
Proof using Type.
  induction arr as [|c arr IH]; intros j x s pos f v s1 L Hx Nx H Bx Mx Ef EA; cbn [List.length] in *; [lia|]. cbn [scan].
  destruct (Nat.eq_dec x j) as [->|Hj].
  - rewrite Nat.sub_diag in Nx. cbn in Nx. destruct (Z.eqb_spec c 0); [easy|].
    destruct (nth_error (isset s) j) as [b|] eqn:E; [|apply nth_error_None in E; lia]. apply nth_error_B in E. rewrite <- E, Bx, Mx, Ef, EA.
    destruct (assign_spec _ _ _ _ EA) as [_ [_ [L1 [L2 [HW HB]]]]].
    rewrite (scan_known bm arr (S j) s1); [eauto|lia|]. intros i Hi. rewrite HB. destruct (Nat.eqb_spec (S j + i) j); auto.
    destruct (H (S i) Hi) as [C|C]; [lia|]. now replace (S j + i)%nat with (j + S i)%nat by lia.
  - replace (x - j)%nat with (S (x - S j)) in Nx by lia. cbn [nth] in Nx.
    destruct (IH (S j) x s pos f v s1) as [k Ek]; auto; try lia.
    { intros i Hi. replace (S j + i)%nat with (j + S i)%nat by lia. now apply H. }
    rewrite Ek. destruct (Z.eqb_spec c 0) as [_|Nc]; [eauto|].
    destruct (nth_error (isset s) j) as [b|] eqn:E; [|apply nth_error_None in E; lia]. apply nth_error_B in E.
    destruct (H O Nc) as [C|C]; [lia|]. rewrite Nat.add_0_r in C. rewrite <- E, C. eauto.
Qed.
Lemma solve_row_after bm r s s1 k : scan bm 0 (rl r) s = Some (k, [], s1) -> scan bm 0 (rl r) s1 = Some (rl r, [], s1) -> scan bm 0 (rr r) s1 = Some (rr r, [], s1) ->
  scan bm 0 (re r) s1 = Some (re r, [], s1) -> scan bm 0 (ro r) s1 = Some (ro r, [], s1) -> solve_row q gx bm r s = solve_row q gx bm r s1.
Proof using Type.
  intros E L R X O. unfold solve_row. rewrite E, L. cbn [lift bind]. rewrite R. cbn [lift bind]. rewrite X. cbn [lift bind]. rewrite O. reflexivity.
Qed.

Lemma bit_step bm D s g r : matches D s -> Forall (canon q) (wit s) -> D "1"%string -> gtyp g = GBit -> gate_row m n g = Some r -> In (gid g) names -> gid g <> "1"%string ->
  D (ident (grep g)) -> In (ident (grep g)) names ->
  (exists pos, bm_get bm (im_idx m (gid g)) = Some (pos, im_idx m (ident (grep g))) /\ a (gid g) = bit_of (a (ident (grep g))) pos) ->
  exists s', solve_row q gx bm r s = Ok s' /\ matches (fun x => D x \/ x = gid g) s'.
Proof using Hq G0 Hm H1 Ha Ca.
  intros M C D1 T E Ig Ng Df If (pos & Mx & Ax). assert (M0 : 0 mod q = 0) by (apply Z.mod_0_l; destruct Hq; lia).
  unfold gate_row in E. destruct (swap_sides g) as [l r']. rewrite T in E. unfold mk_row in E.
  destruct (array_set (zeros n) 0 (-1)) as [v1|] eqn:E1; [|discriminate]. destruct (array_set v1 (im_idx m (gid g)) 1) as [vl|] eqn:E2; [|discriminate].
  destruct (unit_at n (im_idx m (gid g))) as [vr|] eqn:E3; [|discriminate]. injection E as <-.
  destruct (idx_get names m Hm (gid g) Ig) as [Ex Lx]. set (j := im_idx m (gid g)) in *.
  assert (Nj : j <> O). { intros C0. rewrite C0, H1 in Ex. congruence. }
  apply array_set_some in E1. destruct E1 as (A1 & A2 & A3). rewrite zeros_length in A1, A2. apply array_set_some in E2. destruct E2 as (B1 & B2 & B3).
  assert (NZ : forall i, nth i vl 0 = if Nat.eqb i j then 1 else if Nat.eqb i 0 then -1 else 0).
  { intros i. rewrite B3, A3. unfold zeros. rewrite nth_repeat. reflexivity. }
  assert (DO : dense_of [(j, 1); (O, -1)] vl).
  { split; [constructor; [cbn; lia|constructor; [cbn; lia|constructor]]|]. intros i. rewrite NZ. unfold tsum. cbn [map fst snd zsum].
    rewrite (Nat.eqb_sym j i), (Nat.eqb_sym 0 i). destruct (Nat.eqb_spec i j) as [->|]; [|destruct (Nat.eqb i 0); reflexivity].
    destruct (Nat.eqb_spec j 0); [contradiction|reflexivity]. }
  assert (K : forall D' s', matches D' s' -> D' "1"%string -> D' (gid g) ->
    known_vec q n s' vl (a (gid g) - 1) /\ known_vec q n s' vr (a (gid g)) /\ known_vec q n s' (zeros n) 0).
  { intros D' s' M' D1' Dg. split; [|split; [eapply unit_known; eauto|apply zeros_known; exact (proj1 M')]].
    replace (a (gid g) - 1) with (tval [(j, 1); (O, -1)] (map a names)).
    - apply (terms_known q names a D'); auto; [lia|]. cbn [map fst In]. intros i [<-|[<-|[]]]; eauto.
    - unfold tval. cbn [map zsum fst snd]. rewrite (nth_map_names names a _ _ Ex), (nth_map_names names a _ _ H1), Ha. ring. }
  assert (CH : forall D' s', matches D' s' -> D' "1"%string -> D' (gid g) -> solve_row q gx bm (Row vl vr (zeros n) (zeros n)) s' = Ok s').
  { intros D' s' M' D1' Dg. destruct (K D' s' M' D1' Dg) as (K1 & K2 & K3).
    apply (row_check q Hq gx bm n s' (Row vl vr (zeros n) (zeros n)) (a (gid g) - 1) (a (gid g)) 0 0 (proj1 M') K1 K2 K3 K3).
    rewrite M0, G0, Ax. destruct (bit_of_01 (a (ident (grep g))) pos) as [-> | ->]; apply cong_eq; ring. }
  destruct (proj2 M _ _ Ex) as [Bj _]. destruct (B s j) eqn:Es.
  - exists s. assert (Dg : D (gid g)) by now apply Bj. split; [now apply (CH D)|]. eapply matches_iff; [|exact M]. cbn. intros x _. split; auto. intros [ | -> ]; auto.
  - assert (Ev := exact_value D s _ M C Df If). destruct (proj1 M) as [S1 S2].
    destruct (assign_ok s j (bit_of (a (ident (grep g))) pos)) as [s1 EA]; [lia|lia|]. exists s1.
    assert (M1 : matches (fun x => D x \/ x = gid g) s1). { apply (matches_assign q names m Hm a D s (gid g) _ s1 M Ig EA). rewrite Ax. reflexivity. }
    split; auto. destruct (K _ s1 M1 (or_introl D1) (or_intror eq_refl)) as (K1 & K2 & K3).
    assert (SB : exists k, scan bm 0 vl s = Some (k, [], s1)).
    { apply (scan_bit bm vl 0 j s pos (im_idx m (ident (grep g))) (a (ident (grep g))) s1); auto; try lia.
      - rewrite Nat.sub_0_r, NZ, Nat.eqb_refl. discriminate.
      - intros i Hi. cbn [Nat.add]. rewrite NZ in Hi. destruct (Nat.eqb_spec i j); auto. destruct (Nat.eqb_spec i 0) as [E0|E0]; [|easy]. right. rewrite E0. now apply (proj2 M _ _ H1). }
    destruct SB as [k Ek].
    rewrite (solve_row_after bm (Row vl vr (zeros n) (zeros n)) s s1 k Ek); cbn [rl rr re ro]; try (eapply kscan; [exact (proj1 M1)|eassumption]).
    apply (CH _ s1 M1); auto.
Qed.
Lemma sum_step bm D s g r : matches D s -> D "1"%string -> gtyp g = GSum -> gate_distinct g -> gright g = [] -> gate_row m n g = Some r -> Forall (fac_in D) (gleft g) ->
  D (ident (grep g)) -> In (ident (grep g)) names -> gate_holds q gx a g -> solve_row q gx bm r s = Ok s.
Proof using Hq G0 Hm H1 Ha.
  intros M D1 T SD Rt E Fl Df If GH. destruct SD as [SL _]. assert (M0 : 0 mod q = 0) by (apply Z.mod_0_l; destruct Hq; lia).
  unfold gate_row in E. assert (PE := swap_empty g Rt). destruct (swap_sides g) as [l r']. injection PE as -> ->. rewrite T in E. unfold mk_row in E.
  destruct (vec m n (gleft g)) as [vl|] eqn:El; [|discriminate]. destruct (unit_at n 0) as [v1|] eqn:E1; [|discriminate].
  destruct (unit_at n (im_idx m (ident (grep g)))) as [vo|] eqn:Eo; [|discriminate]. injection E as <-.
  assert (I1 : In "1"%string names) by (eapply nth_error_In; eauto).
  apply (row_check q Hq gx bm n s (Row vl v1 (zeros n) vo) (lin a (gleft g)) (a "1"%string) 0 (a (ident (grep g))) (proj1 M)); cbn [rl rr re ro].
  - eapply vec_known; eauto.
  - eapply unit_known; eauto. now rewrite (idx_one names m Hm H1).
  - apply zeros_known. exact (proj1 M).
  - eapply unit_known; eauto.
  - unfold gate_holds in GH. rewrite T in GH. rewrite M0, G0, Ha, <- GH. apply cong_eq. ring.
Qed.

Lemma split_steps bm V gs : in_order V gs -> Forall gate_distinct gs -> Forall (gate_shape names) gs -> all_hold q gx a gs -> Forall (div_ok q a) gs ->
  Forall (fun g => gnonew g = adds_no_wire (gtyp g)) gs -> incl (out_names gs) names -> NoDup (out_names gs) ->
  (forall x, V x -> In x names /\ ~ In x (out_names gs)) -> V "1"%string ->
  (forall g, In g gs -> gtyp g = GBit -> exists pos, bm_get bm (im_idx m (gid g)) = Some (pos, im_idx m (ident (grep g))) /\ a (gid g) = bit_of (a (ident (grep g))) pos) ->
  (forall x, In x (out_names gs) -> ~ is_bit_name gs x -> bm_get bm (im_idx m x) = None) ->
  forall post pre, gs = pre ++ post -> forall s rs (D : string -> Prop), all_some (gate_row m n) post = Some rs -> matches D s -> Forall (canon q) (wit s) ->
  (forall x, Kp V pre x -> D x) -> (forall x, D x -> Kp V pre x \/ is_bit_name gs x) ->
  exists s' D', solve_rows q gx bm rs s = Ok s' /\ matches D' s' /\ Forall (canon q) (wit s') /\ forall x, Kp V gs x -> D' x.
Proof using Hq G0 Hm H1 Ha Ca.
  intros HO HD HS HA HV HN HI ND VN V1 HB HB'. assert (Q : 1 < q) by (destruct Hq; lia). induction post as [|g post IH]; intros pre E s rs D ER M C LO UP.
  - cbn in ER. injection ER as <-. exists s, D. rewrite app_nil_r in E. subst pre. auto.
  - cbn [all_some] in ER. destruct (gate_row m n g) as [r|] eqn:Eg; [|discriminate].
    destruct (all_some (gate_row m n) post) as [rs'|] eqn:Ep; [|discriminate]. injection ER as <-.
    assert (Hg : In g gs) by (rewrite E; apply in_app_iff; right; now left).
    assert (Ng := proj1 (Forall_forall _ _) HN g Hg). cbn in Ng. assert (Gd := proj1 (Forall_forall _ _) HD g Hg). assert (Gs := proj1 (Forall_forall _ _) HS g Hg).
    assert (Gh := proj1 (Forall_forall _ _) HA g Hg). assert (Gv := proj1 (Forall_forall _ _) HV g Hg).
    assert (RD := ready_mono _ D g LO (HO pre g post E)). assert (D1 : D "1"%string) by (apply LO; now left).
    assert (KN : forall x, Kp V pre x -> In x names).
    { intros x [Hx|Hx]; [now apply VN|]. apply HI. rewrite E, out_names_app. apply in_app_iff. auto. }
    assert (ST : exists s1, solve_row q gx bm r s = Ok s1 /\ matches (fun x => D x \/ (gnonew g = false /\ x = gid g)) s1).
    { assert (Rd := HO pre g post E). unfold ready in RD, Rd. destruct (gtyp g) eqn:T.
      all: try (assert (Io : In (gid g) (out_names gs)) by (apply out_names_in; auto; now rewrite Ng)).
      all: try (exfalso; unfold solvable in RD; rewrite T in RD; exact RD).
      all: try (destruct (gate_step q Hq gx G0 names m Hm H1 a Ha bm D s g r M D1 Gd Gs Eg RD Gh Gv) as [s1 [R1 M1]];
        [intros TT|exists s1; split; auto; eapply matches_iff; [|exact M1]; intros x _; unfold own; rewrite Ng, T; cbn [adds_no_wire]; intuition congruence]).
      all: try (assert (NB : ~ is_bit_name gs (gid g)) by
        (intros (g' & I' & T' & E'); assert (Gs' := proj1 (Forall_forall _ _) HS g' I'); unfold gate_shape in Gs'; rewrite T' in Gs';
         assert (X := out_unique gs ND g g' Hg I' Ng Gs' (eq_sym E')); congruence)).
      all: try (split; [now apply HI|]; split; [|now apply HB']; intros Dg; destruct (UP _ Dg) as [[Vg|Pg]|Bg]; [now apply (proj2 (VN _ Vg))| |contradiction];
        rewrite E, out_names_app in ND; change (g :: post) with ([g] ++ post) in ND; rewrite out_names_app in ND;
        apply (NoDup_disjoint _ _ ND (gid g) Pg), in_app_iff; left; apply out_names_in; [now left|rewrite Ng; reflexivity]).
      all: try congruence.
      - destruct RD as [RD1 RD2]. exists s. unfold gate_shape in Gs. rewrite T in Gs. split; [eapply sum_step; eauto; apply Gs|]. eapply matches_iff; [|exact M]. intros x _. rewrite Ng. cbn. intuition congruence.
      - destruct (bit_step bm D s g r M C D1 T Eg) as [s1 [R1 M1]]; auto.
        { intros C1. apply (proj2 (VN _ V1)). now rewrite <- C1. }
        exists s1. split; auto. eapply matches_iff; [|exact M1]. intros x _. rewrite Ng. cbn. intuition. }
    destruct ST as [s1 [R1 M1]].
    assert (C1 : Forall (canon q) (wit s1)) by (eapply (solve_row_all q gx bm (canon q) Q); [intros v Hv; exact Hv|exact R1|exact C]).
    assert (KX : forall x, Kp V (pre ++ [g]) x <-> Kp V pre x \/ (gnonew g = false /\ x = gid g)).
    { intros x. unfold Kp. rewrite out_names_app, in_app_iff. unfold out_names at 2. cbn [filter]. destruct (gnonew g); cbn; intuition congruence. }
    destruct (IH (pre ++ [g])) with (s := s1) (rs := rs') (D := fun x => D x \/ (gnonew g = false /\ x = gid g)) as (s2 & D2 & R2 & M2 & C2 & K2); auto.
    { now rewrite <- app_assoc. }
    { intros x Hx. apply KX in Hx. destruct Hx; auto. }
    { intros x [Hx|Hx]; [destruct (UP x Hx); auto; left; apply KX; auto|left; apply KX; auto]. }
    exists s2, D2. split; [|auto]. cbn [solve_rows]. rewrite R1. exact R2.
Qed.

(** The values of the bits of the inputs *)
Lemma put_bits_ok k : In k names -> forall bs zs pos D s, matches D s -> Forall (canon q) (wit s) -> D k -> map Some zs = map (im_get m) bs ->
  (forall i b, nth_error bs i = Some b -> a b = bit_of (a k) (pos + i)) ->
  exists s', put_bits s (im_idx m k) pos zs = Some s' /\ matches (fun x => D x \/ In x bs) s' /\ Forall (canon q) (wit s').
Proof using Hq Hm Ca.
  intros Ik. assert (Q : 1 < q) by (destruct Hq; lia). induction bs as [|b bs IH]; intros [|z zs] pos D s M C Dk E HB; cbn [map] in E; try discriminate.
  - exists s. split; [reflexivity|]. split; auto. eapply matches_iff; [|exact M]. cbn. tauto.
  - injection E as Ez E. cbn [put_bits]. rewrite (exact_value D s k M C Dk Ik). assert (Ib : In b names) by (apply (get_in names m Hm); congruence).
    assert (Iz : im_idx m b = z) by (unfold im_idx; now rewrite <- Ez). destruct (idx_get names m Hm b Ib) as [_ Lb]. rewrite Iz in Lb. destruct (proj1 M) as [S1 S2].
    destruct (assign_ok s z (bit_of (a k) pos)) as [s1 EA]; [lia|lia|]. rewrite EA.
    assert (Ab : a b = bit_of (a k) pos) by (rewrite (HB O b eq_refl); f_equal; lia).
    destruct (IH zs (S pos) (fun x => D x \/ x = b) s1) as (s' & E' & M' & C'); auto.
    + apply (matches_assign q names m Hm a D s b (bit_of (a k) pos) s1 M Ib); [rewrite Iz; exact EA|]. rewrite Ab. reflexivity.
    + eapply assign_all; [exact EA| |exact C]. unfold canon. destruct (bit_of_01 (a k) pos) as [-> | ->]; lia.
    + intros i b' Hb. rewrite (HB (S i) b' Hb). f_equal. lia.
    + exists s'. split; auto. split; auto. eapply matches_iff; [|exact M']. cbn. intros x _. intuition.
Qed.
Definition entry_ok (gs : list gate) (j pos f : nat) : Prop :=
  exists k x, f = im_idx m k /\ im_get m x = Some j /\ nth_error (bit_names gs k) pos = Some x.
Lemma put_splits_ok gs : digits a gs -> forall sp s b D, matches D s -> Forall (canon q) (wit s) ->
  (forall k zs, In (k, zs) sp -> In k names /\ map Some zs = map (im_get m) (bit_names gs k)) ->
  exists s' b' (D' : string -> Prop), put_splits m s b sp = Some (s', b') /\ matches D' s' /\ Forall (canon q) (wit s') /\
    (forall x, D x -> D' x) /\ (forall x, D' x -> D x \/ is_bit_name gs x) /\
    (forall j, In j (bit_indices sp) \/ bm_get b j <> None -> bm_get b' j <> None) /\
    (forall j pos f, bm_get b' j = Some (pos, f) -> bm_get b j = Some (pos, f) \/ entry_ok gs j pos f).
Proof using Hq Hm Ca.
  intros DG. induction sp as [|[k zs] sp IH]; intros s b D M C HS; cbn [put_splits].
  - exists s, b, D. split; [reflexivity|]. split; auto. split; auto. split; auto. split; auto. split; auto. intros j [[]|]; auto.
  - destruct (HS k zs (or_introl eq_refl)) as [Ik Ez]. destruct (idx_get names m Hm k Ik) as [Ek Lk]. destruct (proj1 M) as [S1 S2].
    destruct (nth_error (isset s) (im_idx m k)) as [kn|] eqn:En; [|apply nth_error_None in En; lia]. apply nth_error_B in En.
    assert (X : exists s1 (D1 : string -> Prop), (if kn then put_bits s (im_idx m k) 0 zs else Some s) = Some s1 /\ matches D1 s1 /\ Forall (canon q) (wit s1) /\
      (forall x, D x -> D1 x) /\ (forall x, D1 x -> D x \/ is_bit_name gs x)).
    { destruct kn; [|exists s, D; auto 10]. destruct (put_bits_ok k Ik (bit_names gs k) zs 0 D s M C) as (s1 & E1 & M1 & C1); auto.
      { now apply (proj2 M _ _ Ek). }
      { intros i x Hx. exact (DG k i x Hx). }
      exists s1, (fun x => D x \/ In x (bit_names gs k)). split; auto. split; auto. split; auto. split; auto. intros x [Hx|Hx]; auto. right.
      apply In_nth_error in Hx. destruct Hx as [i Hx]. apply bit_names_in in Hx. destruct Hx as (g & A1 & A2 & _ & _ & A3). exists g. auto. }
    destruct X as (s1 & D1 & -> & M1 & C1 & U1 & L1).
    destruct (IH s1 (note_bits b (im_idx m k) 0 zs) D1 M1 C1) as (s' & b' & D' & E' & M' & C' & U' & L' & P' & Q').
    { intros k' zs' H'. apply HS. now right. }
    exists s', b', D'. split; auto. split; auto. split; auto. split; [auto|]. split; [intros x Hx; destruct (L' x Hx); auto|]. split.
    + intros j Hj. apply P'. unfold bit_indices in Hj. cbn [flat_map snd] in Hj. rewrite in_app_iff in Hj. fold (bit_indices sp) in Hj.
      destruct Hj as [[Hj|Hj]|Hj]; [right; apply note_bits_has; auto|auto|right; apply note_bits_has; auto].
    + intros j pos f Hj. destruct (Q' j pos f Hj) as [Hj'|]; auto. destruct (note_bits_at _ _ _ _ _ _ _ Hj') as [|(-> & i & -> & Hi)]; auto. right.
      assert (Hb : nth_error (map Some zs) i = Some (Some j)) by (rewrite nth_error_map, Hi; reflexivity). rewrite Ez, nth_error_map in Hb.
      destruct (nth_error (bit_names gs k) i) as [x|] eqn:Ex; [|discriminate]. injection Hb as Hb. exists k, x. auto.
Qed.
End Bits.
