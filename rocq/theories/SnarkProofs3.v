(** Proofs about SnarkModel: honest and forged proofs. *)
Require Import ZArith Znumtheory NArith Bool Ascii String Lia Setoid Morphisms List.
Require Import Verif.Cong Verif.FqModel Verif.FqSpec Verif.FqProofs Verif.PolyModel Verif.PolyProofs Verif.InterpProofs.
Require Import Verif.AvlModel Verif.SparseModel Verif.FactorModel Verif.R1csModel Verif.R1csSpec Verif.SnarkModel Verif.SnarkSpec.
Require Import Verif.SnarkProofs Verif.SnarkProofs2.
Import ListNotations.
Open Scope Z_scope.

Lemma interpolates_ext q d d' p : List.length d = List.length d' -> (forall i, (i < List.length d)%nat -> nth i d 0 ==[q] nth i d' 0) ->
  interpolates q d p -> interpolates q d' p.
Proof. intros L H [A B]. split; [lia|]. intros i Hi. rewrite B by lia. apply H. lia. Qed.
Lemma interpolates_value q d p p' x : prime q -> Z.of_nat (List.length d) <= q -> interpolates q d p -> interpolates q d p' ->
  poly_at p x ==[q] poly_at p' x.
Proof.
  intros Pq Hn [A B] [A' B']. apply poly_at_peq. apply (interp_unique q (List.length d)); auto.
  intros i Hi. rewrite B, B' by auto. reflexivity.
Qed.
Lemma interpolates_const q d z : (1 <= List.length d)%nat -> (forall i, (i < List.length d)%nat -> nth i d 0 ==[q] z) -> interpolates q d [z].
Proof. intros L H. split; [cbn; lia|]. intros i Hi. rewrite H by auto. apply cong_eq. unfold poly_at. cbn. ring. Qed.

Section Fixed.
Variable q : Z.
Hypothesis Pq : prime q.
Variable G : groups.
Local Notation gx := (gxc G).
Hypothesis Laws : lawful q G.
Let q1 : 1 < q.
Proof. destruct Pq; lia. Qed.

Variable s : er1cs (list Z).
Variable T : columns (list Z).
Hypothesis W : well_sized s.
Hypothesis ET : transpose_er1cs s = Some T.
Local Notation n := (List.length (rows s)).
Local Notation m := (List.length (index_map s)).
Hypothesis N2 : (2 <= n)%nat.
Hypothesis Nq : Z.of_nat n <= q.

Lemma values_use cols x vs d p w : column_values q cols x vs -> List.length w = List.length cols -> w <> [] ->
  weighted q cols w = Some d -> interpolates q d p -> dot vs w ==[q] poly_at p x.
Proof. intros [_ H]. intros. eapply H; eauto. Qed.

(** What the setup yields, with the equation its proofs have to satisfy. *)
Lemma key_split vk pub w id ig al_ de ga : de * id ==[q] 1 -> ga * ig ==[q] 1 -> al_ ==[q] dot vk w ->
  dot (map (fun t => fmul q ig t) (firstn pub vk)) (firstn pub w) * ga +
  dot (map (fun t => fmul q id t) (skipn pub vk)) (skipn pub w) * de ==[q] al_.
Proof.
  intros Hd Hg ->. rewrite !dot_scale. rewrite (dot_split vk pub w).
  replace (ig * dot (firstn pub vk) (firstn pub w) * ga + id * dot (skipn pub vk) (skipn pub w) * de)
    with (ga * ig * dot (firstn pub vk) (firstn pub w) + de * id * dot (skipn pub vk) (skipn pub w)) by ring.
  rewrite Hd, Hg. apply cong_eq; ring.
Qed.

Theorem honest c c2 pub w x al be ga de :
  cache_ok q c -> cache_ok q c2 -> (1 <= pub)%nat -> (pub < m)%nat -> List.length w = m -> Forall (Z.le 0) w ->
  Forall (row_ok q gx w) (rows s) ->
  0 <= x -> 0 <= al -> 0 <= be -> 0 <= ga -> 0 <= de -> ~ ga ==[q] 0 -> ~ de ==[q] 0 ->
  exists k c1 Px c3, generate_setup q G c pub T x al be ga de = Some (k, c1) /\
    combine_polynomials q G c2 w T = Some (Px, c3) /\
    (prover_safe q G pub k w Px -> verifier_safe G k (firstn pub w) ->
     exists p b, generate_proofs q G pub k w Px = Some p /\ verify_proof G k p (firstn pub w) = Some b /\
     forall Ep Gp, interpolates q (map (fun r => dot (re r) w mod q) (rows s)) Ep ->
       interpolates q (map (fun r => gx (dot (re r) w mod q)) (rows s)) Gp ->
       (b = true <-> gx (poly_at Ep x mod q) ==[q] poly_at Gp x)).
Proof.
  intros Hc Hc2 Hp1 Hp Lw Hw SAT Hx Hal Hbe Hga Hde Nga Nde.
  assert (Nw : w <> []) by (destruct w; [cbn in *; lia|discriminate]).
  destruct (setup_spec q Pq G n m T c pub x al be ga de N2 Nq (good_columns_of s T W ltac:(lia) ET) Hc Hp Hx Nga Nde)
    as (k & c1 & EK & Hc1 & vl & vr & ve & vo & vle & vk & pd & id & ig & dx & Vl & Vr & Ve & Vo & Pr & Pe & Ple & Pk' & Ppd & Hid & Hig & Eid & Eig & Edx & Lle & Lk & Lpd & Dle & Dk & Dpd & K).
  destruct (combine_spec q Pq G s T c2 w ltac:(lia) Nq W ET Hc2 Lw Nw)
    as (Px & c3 & EP & Hc3 & LP & RP & (dl & dr & de_ & d_o & l & r & g & o & Wl & Wr & We & Wo & Il & Ir & Ig & Io & Ll & Lr & Lo & Lde & Vde & EvP) & Gate).
  exists k, c1, Px, c3. split; auto. split; auto. intros PS VS.
  destruct (divisible_iff q Pq G s Px w ltac:(lia) Nq RP ltac:(lia) Gate) as [Qx [rem [ED [RQ [LQ [EvQ Iff]]]]]].
  assert (Z := proj2 Iff SAT).
  assert (Zr : forall y, poly_at rem y ==[q] 0).
  { intros y. destruct (pdiv_reduced q Px _ Qx rem ltac:(lia) RP ED) as [_ RR].
    rewrite <- (poly_at_nil y). apply poly_at_peq. intros i. rewrite coef_nil. now apply (is_zero_array_iff q rem RR). }
  assert (Lcl : List.length (cl T) = m /\ List.length (cr T) = m /\ List.length (ce T) = m /\ List.length (co T) = m).
  { destruct (good_columns_of s T W ltac:(lia) ET) as [_ [_ [[A _] [[B _] [[C _] [D _]]]]]]. auto. }
  destruct Lcl as [Lc1 [Lc2 [Lc3 Lc4]]].
  assert (Lve := proj1 Ve). assert (Lvr := proj1 Vr).
  assert (HQ := reduced_nonneg q Qx RQ).
  destruct PS as [PA [PB [PE PQ]]].
  subst k. cbn [lx_ex alpha1 rx ex domain powers_domain_delta rleo_delta rleo_gamma] in *.
  destruct (PQ Qx rem ED) as [PQ1 PQ2]. clear PQ.
  assert (NQ : Qx <> []) by (destruct Qx; [cbn in LQ; lia|discriminate]).
  assert (MQ : msm (smul1 G) (acc1 G) (map (base1 G) pd) Qx = Some (base1 G (dot pd Qx))).
  { apply (msm_exp (smul1 G) (acc1 G) (base1 G) (apart (base1 G 0)) (law_smul1 q G Laws) (law_acc1 q G Laws)); auto. lia. }
  destruct (msm_exp_app (smul1 G) (acc1 G) (base1 G) (apart (base1 G 0)) (law_smul1 q G Laws) (law_acc1 q G Laws) vle w al) as [MA MA']; auto; [lia|].
  assert (MB : msm (smul2 G) (acc2 G) (map (base2 G) vr) w = Some (base2 G (dot vr w))).
  { apply (msm_exp (smul2 G) (acc2 G) (base2 G) (apart (base2 G 0)) (law_smul2 q G Laws) (law_acc2 q G Laws)); auto. lia. }
  assert (ME : msm (smul1 G) (acc1 G) (map (base1 G) ve) w = Some (base1 G (dot ve w))).
  { apply (msm_exp (smul1 G) (acc1 G) (base1 G) (apart (base1 G 0)) (law_smul1 q G Laws) (law_acc1 q G Laws)); auto. lia. }
  set (vd := map (fun t => fmul q id t) (skipn pub vk)) in *. set (vg := map (fun t => fmul q ig t) (firstn pub vk)) in *.
  assert (Hvd : Forall (Z.le 0) vd) by (apply Forall_fmul; auto). assert (Hvg : Forall (Z.le 0) vg) by (apply Forall_fmul; auto).
  assert (Lvd : List.length vd = (m - pub)%nat) by (unfold vd; rewrite map_length, skipn_length; lia).
  assert (Lvg : List.length vg = pub) by (unfold vg; rewrite map_length, firstn_length; lia).
  assert (Hs := Forall_skipn _ pub w Hw). assert (Hf := Forall_firstn _ pub w Hw).
  assert (Ls : List.length (skipn pub w) = (m - pub)%nat) by (rewrite skipn_length; lia).
  assert (Lf : List.length (firstn pub w) = pub) by (rewrite firstn_length; lia).
  assert (HpQ : 0 <= dot pd Qx) by (apply dot_nonneg; auto).
  destruct (msm_exp_app (smul1 G) (acc1 G) (base1 G) (apart (base1 G 0)) (law_smul1 q G Laws) (law_acc1 q G Laws) vd (skipn pub w) (dot pd Qx)) as [MC MC']; auto;
    try lia; try (destruct (skipn pub w); [cbn in Ls; lia|discriminate]); try (intros ts Ets; apply (PQ2 ts _ Ets MQ)).
  assert (MI : msm (smul1 G) (acc1 G) (map (base1 G) vg) (firstn pub w) = Some (base1 G (dot vg (firstn pub w)))).
  { apply (msm_exp (smul1 G) (acc1 G) (base1 G) (apart (base1 G 0)) (law_smul1 q G Laws) (law_acc1 q G Laws)); auto; [lia|].
    destruct (firstn pub w); [cbn in Lf; lia|discriminate]. }
  set (A := dot vle w + al) in *. set (B := dot vr w) in *. set (F := dot ve w) in *. set (C := dot vd (skipn pub w) + dot pd Qx) in *.
  set (IC := dot vg (firstn pub w)) in *.
  eexists (Proof G (base1 G A) (base2 G B) (base1 G C) (base1 G F)).
  match goal with |- context [verify_proof G ?k _ _] => set (K := k) end.
  destruct (verify_exp q Pq G Laws K (firstn pub w) A B C F IC al be ga de) as [b [EV Ib]]; auto; try reflexivity;
    try (unfold A; assert (0 <= dot vle w) by (apply dot_nonneg; auto); lia);
    try (apply dot_nonneg; auto);
    try (unfold C; assert (0 <= dot vd (skipn pub w)) by (apply dot_nonneg; auto); lia).
  { unfold K. cbn [rleo_gamma]. rewrite map_length. lia. }
  exists b. split; [|split; auto].
  - unfold generate_proofs, K. cbn [domain powers_domain_delta]. rewrite ED, Z, MQ. unfold assemble. cbn [lx_ex rx rleo_delta ex alpha1].
    rewrite MA, MB, MC, ME. fold A B F C. now rewrite MA', MC'.
  - intros Ep Gp IE IG. rewrite Ib.
    assert (VL : dot vl w ==[q] poly_at l x) by (eapply values_use; eauto; lia).
    assert (VR : B ==[q] poly_at r x) by (eapply values_use; eauto; lia).
    assert (VO : dot vo w ==[q] poly_at o x) by (eapply values_use; eauto; lia).
    assert (Nt : forall i, (i < n)%nat -> dot (nth i (map re (rows s)) []) w mod q = nth i (map (fun r => dot (re r) w mod q) (rows s)) 0).
    { intros i Hi. destruct (nth_error (rows s) i) as [r0|] eqn:E0; [|apply nth_error_None in E0; lia].
      rewrite (nth_error_nth _ _ [] (map_nth_error re i _ E0)).
      now rewrite (nth_error_nth _ _ 0 (map_nth_error (fun r => dot (re r) w mod q) i _ E0)). }
    assert (VE : F ==[q] poly_at Ep x).
    { apply (values_use (ce T) x ve de_ Ep w); auto; try lia.
      apply (interpolates_ext q (map (fun r => dot (re r) w mod q) (rows s)) de_); auto; [rewrite map_length; lia|].
      intros i Hi. rewrite map_length in Hi. rewrite Vde, Nt by auto. reflexivity. }
    assert (VG : poly_at g x ==[q] poly_at Gp x).
    { apply (interpolates_value q (map gx de_)); auto; [rewrite map_length; lia|].
      apply (interpolates_ext q (map (fun r => gx (dot (re r) w mod q)) (rows s)) (map gx de_)); auto; [rewrite !map_length; lia|].
      intros i Hi. rewrite map_length in Hi. rewrite (nth_indep (map gx de_) 0 (gx 0)) by (rewrite map_length; lia).
      rewrite map_nth, Vde by auto. apply cong_eq.
      destruct (nth_error (rows s) i) as [r0|] eqn:E0; [|apply nth_error_None in E0; lia].
      rewrite (nth_error_nth _ _ [] (map_nth_error re i _ E0)).
      now rewrite (nth_error_nth _ _ 0 (map_nth_error (fun r => gx (dot (re r) w mod q)) i _ E0)). }
    assert (XF : gx F = gx (poly_at Ep x mod q)).
    { unfold gxc. f_equal. apply (law_base1 q G Laws); [apply dot_nonneg; auto|apply Z.mod_pos_bound; lia|]. rewrite VE. symmetry. apply cong_mod. }
    assert (KS := key_split vk pub w id ig _ de ga Eid Eig ltac:(symmetry; apply Dk)). fold vd vg IC B F in KS.
    assert (PQ : dot pd Qx * de ==[q] poly_at l x * poly_at r x + poly_at g x - poly_at o x).
    { rewrite (Dpd Qx ltac:(lia)). rewrite <- EvP, EvQ, Zr, Edx.
      replace (poly_at (domain_poly q n) x * id * poly_at Qx x * de) with (de * id * (poly_at (domain_poly q n) x * poly_at Qx x)) by ring.
      rewrite Eid. apply cong_eq; ring. }
    assert (AA : A ==[q] poly_at l x + F + al). { unfold A. rewrite Dle. fold F. rewrite VL. apply cong_eq; ring. }
    assert (RHS : al * be + IC * ga + C * de + F * B ==[q]
      al * be + (al * B + be * poly_at l x + be * F + poly_at o x) + (poly_at l x * poly_at r x + poly_at Gp x - poly_at o x) + F * B).
    { unfold C. replace (al * be + IC * ga + (dot vd (skipn pub w) + dot pd Qx) * de + F * B)
        with (al * be + (IC * ga + dot vd (skipn pub w) * de) + dot pd Qx * de + F * B) by ring.
      rewrite KS, PQ, VL, VO, VG. apply cong_eq; ring. }
    rewrite RHS, AA, XF. rewrite <- VR.
    split; intros H; apply cong_sub_0; apply cong_sub_0 in H; rewrite <- H; apply cong_eq; ring.
Qed.

(** Systems without base multiplications. *)
Lemma dot_zero a : Forall (fun v => v = 0) a -> forall w, dot a w = 0.
Proof. induction 1 as [|v a Hv _ IH]; intros [|y w]; cbn; auto. rewrite IH, Hv. ring. Qed.

Lemma free_data w : exponent_free s -> map (fun r => dot (re r) w mod q) (rows s) = repeat 0 n /\ map (fun r => gx (dot (re r) w mod q)) (rows s) = repeat 0 n.
Proof.
  intros F. unfold exponent_free in F. clear - F Laws q1. induction F as [|r rs Hr _ IH]; [split; reflexivity|]. cbn [map List.length repeat]. destruct IH as [-> ->].
  rewrite (dot_zero (re r) Hr). rewrite Z.mod_0_l by lia. unfold gxc. rewrite (law_x0 q G Laws). auto.
Qed.
Lemma free_values p x : exponent_free s -> interpolates q (repeat 0 n) p -> poly_at p x ==[q] 0.
Proof.
  intros F I. assert (I0 : interpolates q (repeat 0 n) [0]).
  { apply interpolates_const; rewrite repeat_length; [lia|]. intros i Hi. rewrite nth_repeat. reflexivity. }
  assert (L0 : Z.of_nat (List.length (repeat 0 n)) <= q) by (rewrite repeat_length; auto).
  rewrite (interpolates_value q _ p [0] x Pq L0 I I0). apply cong_eq. unfold poly_at. cbn. ring.
Qed.

(** A proof without a witness. *)
Theorem forged pub w f :
  exponent_free s -> (1 <= pub)%nat -> (pub < m)%nat -> List.length w = m -> Forall (Z.le 0) w -> 0 <= f ->
  Forall (fun r => (dot (rl r) w - f) * dot (rr r) w + gx f ==[q] dot (ro r) w) (rows s) ->
  exists Qx, Forall (Z.le 0) Qx /\ forall c k c1 x al be ga de, cache_ok q c ->
    0 <= x -> 0 <= al -> 0 <= be -> 0 <= ga -> 0 <= de -> ~ ga ==[q] 0 -> ~ de ==[q] 0 ->
    generate_setup q G c pub T x al be ga de = Some (k, c1) -> verifier_safe G k (firstn pub w) ->
    exists p, forge G pub k w Qx f = Some p /\ verify_proof G k p (firstn pub w) = Some true.
Proof.
  intros Free Hp1 Hp Lw Hw Hf0 EQ.
  assert (Nw : w <> []) by (destruct w; [cbn in *; lia|discriminate]).
  destruct (combine_spec q Pq G s T [] w ltac:(lia) Nq W ET (cache_ok_nil q) Lw Nw)
    as (Px0 & c3 & EP & Hc3 & LP & RP & (dl & dr & de_ & d_o & l & r & g & o & Wl & Wr & We & Wo & Il & Ir & Ig & Io & Ll & Lr & Lo & Lde & Vde & EvP) & Gate).
  set (Px := psub q (padd q (pmul q (psub q l [f]) r) [gx f]) o).
  assert (EvX : forall y, poly_at Px y ==[q] (poly_at l y - f) * poly_at r y + gx f - poly_at o y).
  { intros y. unfold Px. rewrite psub_eval, padd_eval, pmul_eval, psub_eval. apply cong_eq. unfold poly_at at 2 4. cbn. ring. }
  assert (LX : List.length Px = (2 * n - 1)%nat).
  { unfold Px. rewrite psub_length, padd_length, pmul_length, psub_length. cbn [List.length]. lia. }
  destruct (div_domain_zero_iff q n Px Pq Nq ltac:(lia) ltac:(lia)) as [Qx [rem [ED [LQ [LR [EvQ Iff]]]]]].
  assert (RX : reduced q Px) by (apply psub_reduced; lia).
  destruct (pdiv_reduced q Px _ Qx rem ltac:(lia) RX ED) as [RQ RR].
  assert (weq : forall i r0, nth_error (rows s) i = Some r0 -> nth i dl 0 ==[q] dot (rl r0) w /\ nth i dr 0 ==[q] dot (rr r0) w /\ nth i d_o 0 ==[q] dot (ro r0) w).
  { intros i r0 Hi. assert (Hl : (i < n)%nat) by (apply nth_error_Some; congruence).
    destruct (transpose_er1cs_spec s W ltac:(lia)) as [T' [E' [T1 [T2 [TL [TR [TE TO]]]]]]].
    rewrite ET in E'. injection E' as <-. assert (W' := W). unfold well_sized in W'. rewrite Forall_forall in W'.
    destruct (weighted_rows q n _ _ _ w ltac:(lia) ltac:(lia) (rows_rectangular s rl ltac:(intros; apply W'; auto)) TL Lw Nw) as [dl' [El [_ [_ Hvl]]]].
    destruct (weighted_rows q n _ _ _ w ltac:(lia) ltac:(lia) (rows_rectangular s rr ltac:(intros; apply W'; auto)) TR Lw Nw) as [dr' [Er [_ [_ Hvr]]]].
    destruct (weighted_rows q n _ _ _ w ltac:(lia) ltac:(lia) (rows_rectangular s ro ltac:(intros; apply W'; auto)) TO Lw Nw) as [do' [Eo [_ [_ Hvo]]]].
    rewrite Wl in El. injection El as <-. rewrite Wr in Er. injection Er as <-. rewrite Wo in Eo. injection Eo as <-.
    rewrite (Hvl i Hl), (Hvr i Hl), (Hvo i Hl).
    rewrite (nth_error_nth _ _ [] (map_nth_error rl i _ Hi)), (nth_error_nth _ _ [] (map_nth_error rr i _ Hi)), (nth_error_nth _ _ [] (map_nth_error ro i _ Hi)).
    repeat split; reflexivity. }
  assert (Zr : forall y, poly_at rem y ==[q] 0).
  { intros y. rewrite <- (poly_at_nil y). apply poly_at_peq. intros i. rewrite coef_nil. revert i. apply Iff. intros i Hi.
    destruct (nth_error (rows s) i) as [r0|] eqn:E0; [|apply nth_error_None in E0; lia].
    rewrite EvX. destruct (weq i r0 E0) as [V1 [V2 V3]].
    assert (Ldl : (n <= List.length dl)%nat) by (destruct Il; lia). assert (Ldr : (n <= List.length dr)%nat) by (destruct Ir; lia).
    assert (Ldo : (n <= List.length d_o)%nat) by (destruct Io; lia).
    rewrite (proj2 Il), (proj2 Ir), (proj2 Io), V1, V2, V3 by lia.
    apply -> cong_sub_0. rewrite Forall_forall in EQ. apply EQ. eapply nth_error_In; eauto. }
  exists Qx. split; [exact (reduced_nonneg q Qx RQ)|]. intros c k c1 x al be ga de Hc Hx Hal Hbe Hga Hde Nga Nde EK0 VS.
  destruct (setup_spec q Pq G n m T c pub x al be ga de N2 Nq (good_columns_of s T W ltac:(lia) ET) Hc Hp Hx Nga Nde)
    as (k' & c1' & EK & Hc1 & vl & vr & ve & vo & vle & vk & pd & id & ig & dx & Vl & Vr & Ve & Vo & Pr & Pe & Ple & Pk' & Ppd & Hid & Hig & Eid & Eig & Edx & Lle & Lk & Lpd & Dle & Dk & Dpd & K).
  rewrite EK0 in EK. injection EK as <- <-.
  assert (Lcl : List.length (cl T) = m /\ List.length (cr T) = m /\ List.length (ce T) = m /\ List.length (co T) = m).
  { destruct (good_columns_of s T W ltac:(lia) ET) as [_ [_ [[A _] [[B _] [[C _] [D _]]]]]]. auto. }
  destruct Lcl as [Lc1 [Lc2 [Lc3 Lc4]]].
  assert (Lve := proj1 Ve). assert (Lvr := proj1 Vr).
  assert (HQ := reduced_nonneg q Qx RQ).
  subst k. cbn [lx_ex alpha1 rx ex domain powers_domain_delta rleo_delta rleo_gamma] in *.
  assert (NQ : Qx <> []) by (destruct Qx; [cbn in LQ; lia|discriminate]).
  assert (Any1 : forall a b, 0 <= a -> 0 <= b -> (fun _ _ => True) (base1 G a) (base1 G b) -> add1 G (base1 G a) (base1 G b) = base1 G (a + b)).
  { intros. now apply (law_add1 q G Laws). }
  assert (Any2 : forall a b, 0 <= a -> 0 <= b -> (fun _ _ => True) (base2 G a) (base2 G b) -> add2 G (base2 G a) (base2 G b) = base2 G (a + b)).
  { intros. now apply (law_add2 q G Laws). }
  assert (Tr : forall X (acc : X -> X -> X) ts, sum_all (fun _ _ => True) acc ts).
  { intros X acc [|t ts]; cbn; auto. revert t. induction ts; cbn; auto. }
  assert (MQ : msm (smul1 G) (add1 G) (map (base1 G) pd) Qx = Some (base1 G (dot pd Qx))).
  { apply (msm_exp (smul1 G) (add1 G) (base1 G) (fun _ _ => True) (law_smul1 q G Laws) Any1); auto. lia. }
  destruct (msm_exp_app (smul1 G) (add1 G) (base1 G) (fun _ _ => True) (law_smul1 q G Laws) Any1 vle w al) as [MA MA']; auto; [lia|].
  assert (MB : msm (smul2 G) (add2 G) (map (base2 G) vr) w = Some (base2 G (dot vr w))).
  { apply (msm_exp (smul2 G) (add2 G) (base2 G) (fun _ _ => True) (law_smul2 q G Laws) Any2); auto. lia. }
  set (vd := map (fun t => fmul q id t) (skipn pub vk)) in *. set (vg := map (fun t => fmul q ig t) (firstn pub vk)) in *.
  assert (Hvd : Forall (Z.le 0) vd) by (apply Forall_fmul; auto). assert (Hvg : Forall (Z.le 0) vg) by (apply Forall_fmul; auto).
  assert (Lvd : List.length vd = (m - pub)%nat) by (unfold vd; rewrite map_length, skipn_length; lia).
  assert (Lvg : List.length vg = pub) by (unfold vg; rewrite map_length, firstn_length; lia).
  assert (Hs := Forall_skipn _ pub w Hw). assert (Hf := Forall_firstn _ pub w Hw).
  assert (Ls : List.length (skipn pub w) = (m - pub)%nat) by (rewrite skipn_length; lia).
  assert (Lf : List.length (firstn pub w) = pub) by (rewrite firstn_length; lia).
  assert (HpQ : 0 <= dot pd Qx) by (apply dot_nonneg; auto).
  destruct (msm_exp_app (smul1 G) (add1 G) (base1 G) (fun _ _ => True) (law_smul1 q G Laws) Any1 vd (skipn pub w) (dot pd Qx)) as [MC MC']; auto;
    try lia; try (destruct (skipn pub w); [cbn in Ls; lia|discriminate]).
  assert (MI : msm (smul1 G) (acc1 G) (map (base1 G) vg) (firstn pub w) = Some (base1 G (dot vg (firstn pub w)))).
  { apply (msm_exp (smul1 G) (acc1 G) (base1 G) (apart (base1 G 0)) (law_smul1 q G Laws) (law_acc1 q G Laws)); auto; [lia|].
    destruct (firstn pub w); [cbn in Lf; lia|discriminate]. }
  set (A := dot vle w + al) in *. set (B := dot vr w) in *. set (C := dot vd (skipn pub w) + dot pd Qx) in *.
  set (IC := dot vg (firstn pub w)) in *.
  eexists (Proof G (base1 G A) (base2 G B) (base1 G C) (base1 G f)).
  match goal with |- context [verify_proof G ?k _ _] => set (K := k) end.
  destruct (verify_exp q Pq G Laws K (firstn pub w) A B C f IC al be ga de) as [b [EV Ib]]; auto; try reflexivity;
    try (unfold A; assert (0 <= dot vle w) by (apply dot_nonneg; auto); lia);
    try (apply dot_nonneg; auto);
    try (unfold C; assert (0 <= dot vd (skipn pub w)) by (apply dot_nonneg; auto); lia).
  { unfold K. cbn [rleo_gamma]. rewrite map_length. lia. }
  split.
  - unfold forge, K. cbn [powers_domain_delta lx_ex rx rleo_delta alpha1]. rewrite MA, MB, MC, MQ. fold A B C. now rewrite MA', MC'.
  - rewrite EV. f_equal. apply Ib. clear Ib EV.
    assert (VL : dot vl w ==[q] poly_at l x) by (eapply values_use; eauto; lia).
    assert (VR : B ==[q] poly_at r x) by (eapply values_use; eauto; lia).
    assert (VO : dot vo w ==[q] poly_at o x) by (eapply values_use; eauto; lia).
    assert (VE : dot ve w ==[q] 0).
    { destruct (free_data w Free) as [F1 _].
      assert (De : de_ = repeat 0 n).
      { rewrite <- F1. apply (nth_ext _ _ 0 0); [rewrite map_length; lia|]. intros i Hi. rewrite Vde by lia.
        destruct (nth_error (rows s) i) as [r0|] eqn:E0; [|apply nth_error_None in E0; lia].
        rewrite (nth_error_nth _ _ [] (map_nth_error re i _ E0)).
        now rewrite (nth_error_nth _ _ 0 (map_nth_error (fun r => dot (re r) w mod q) i _ E0)). }
      assert (I0 : interpolates q de_ [0]).
      { rewrite De. apply interpolates_const; rewrite repeat_length; [lia|]. intros i Hi. rewrite nth_repeat. reflexivity. }
      rewrite (values_use (ce T) x ve de_ [0] w Ve ltac:(lia) Nw We I0). apply cong_eq. unfold poly_at. cbn. ring. }
    assert (KS := key_split vk pub w id ig _ de ga Eid Eig ltac:(symmetry; apply Dk)). fold vd vg IC B in KS.
    assert (PQ : dot pd Qx * de ==[q] (poly_at l x - f) * poly_at r x + gx f - poly_at o x).
    { rewrite (Dpd Qx ltac:(lia)). rewrite <- EvX, EvQ, Zr, Edx.
      replace (poly_at (domain_poly q n) x * id * poly_at Qx x * de) with (de * id * (poly_at (domain_poly q n) x * poly_at Qx x)) by ring.
      rewrite Eid. apply cong_eq; ring. }
    unfold C. replace (al * be + IC * ga + (dot vd (skipn pub w) + dot pd Qx) * de + f * B)
        with (al * be + (IC * ga + dot vd (skipn pub w) * de) + dot pd Qx * de + f * B) by ring.
    unfold A. rewrite KS, PQ, Dle, VL, VO, VE, <- VR. apply cong_eq; ring.
Qed.
End Fixed.
