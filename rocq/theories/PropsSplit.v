(** C96: the solver on systems with SPLIT. *)
Require Import ZArith Znumtheory NArith Lia Bool Permutation Ascii String List.
Require Import Verif.Cong Verif.FqModel Verif.FqSpec Verif.FqProofs Verif.Pocklington Verif.FactorModel Verif.FactorSpec Verif.FactorProofs.
Require Import Verif.ExprModel Verif.ExprSpec Verif.ExprProofs Verif.ExprProofs2 Verif.AvlModel Verif.PolyModel Verif.PolyProofs.
Require Import Verif.R1csModel Verif.R1csSpec Verif.R1csProofs Verif.EndProofs.
Require Import Verif.WitnessModel Verif.WitnessSpec Verif.WitnessProofs Verif.SolveProofs Verif.SolveProofs2 Verif.SolveRange.
Require Import Verif.PropsFactor Verif.PropsExpr Verif.PropsR1cs Verif.PropsEnd Verif.PropsWitness Verif.PropsSolve Verif.SplitProofs Verif.SplitSolve.
Import ListNotations.
Open Scope Z_scope.

(** A gate list the solver can go through from the first row to the last: every gate finds the wires it needs among the inputs and the wires of earlier gates. *)
Definition orderly (pubs ins : list string) (gs : list gate) : Prop :=
  names_ok pubs ins gs false /\ ~ In rand_in (wire_names pubs ins gs false) /\
  Forall (gate_shape (wire_names pubs ins gs false)) gs /\ Forall gate_distinct gs /\ Forall (fun g => gnonew g = adds_no_wire (gtyp g)) gs /\
  in_order (fun x => In x (pubs ++ ins)) gs.
(** A solution with canonical values, no division by zero, and bits that are the binary digits of their wire. *)
Definition digit_solution (q : Z) (gx : Z -> Z) (gs : list gate) (a : assignment) : Prop :=
  a "1"%string = 1 /\ (forall x, 0 <= a x < q) /\ all_hold q gx a gs /\ Forall (div_ok q a) gs /\ digits a gs.

Lemma start_rnd m sp r r' inp : im_idx m rand_in = O -> start m sp r inp = start m sp r' inp.
Proof. intros H. unfold start. now rewrite H. Qed.
Lemma sm_find_in (sp : smap) k zs : NoDup (map fst sp) -> In (k, zs) sp -> sm_find sp k = zs.
Proof.
  induction sp as [|[y l] sp IH]; intros ND H; [easy|]. cbn [map fst] in ND. inversion ND as [|? ? N1 N2]; subst. cbn [sm_find].
  destruct H as [[= -> ->]|H]; [now rewrite String.eqb_refl|]. destruct (String.eqb_spec y k) as [->|]; [|now apply IH].
  exfalso. apply N1. change k with (fst (k, zs)). now apply in_map.
Qed.
Lemma find_in_indices (sp : smap) k j : In j (sm_find sp k) -> In j (bit_indices sp).
Proof.
  unfold bit_indices. induction sp as [|[y l] sp IH]; cbn [sm_find flat_map snd]; [easy|]. rewrite in_app_iff. destruct (String.eqb y k); auto.
Qed.
Lemma input_names pubs ins gs x : In x (pubs ++ ins) -> In x (wire_names pubs ins gs false).
Proof. intros Hx. unfold wire_names. rewrite !in_app_iff in *. destruct Hx as [Hx|Hx]; auto. destruct (fresh_in ins pubs x Hx); auto. Qed.
Lemma names_split pubs ins gs x : In x (wire_names pubs ins gs false) -> In x (pubs ++ ins) \/ In x (out_names gs).
Proof. unfold wire_names. rewrite !in_app_iff. intros [H|[H|[H|[]]]]; auto. left. right. now apply fresh_sub in H. Qed.
Lemma inputs_apart pubs ins gs m x : numbered (wire_names pubs ins gs false) m -> In x (pubs ++ ins) -> ~ In x (out_names gs).
Proof.
  intros [ND _] Hx C. unfold wire_names in ND. rewrite app_nil_r, app_assoc in ND. apply (NoDup_disjoint _ _ ND x); auto.
  rewrite in_app_iff in *. destruct Hx as [Hx|Hx]; auto. destruct (fresh_in ins pubs x Hx); auto.
Qed.

(** The solver returns that solution. *)
Theorem C96_finds : forall q gx, prime q -> gx 0 ==[q] 0 -> forall pubs ins gs d a, orderly pubs ins gs -> gates_to_r1cs pubs ins gs false = Some d -> digit_solution q gx gs a ->
  forall rnd inp, supplied pubs ins inp -> (forall x v, In (x, v) inp -> v = a x) ->
  calculate_witness q gx (index_map d) (split_map d) (rows d) rnd inp = Ok (map a (wire_names pubs ins gs false)).
Proof.
  intros q gx Hq G0 pubs ins gs d a (Hok & Hr & Sh & Ds & HN & HO) E (Ha & Ca & HA & HV & DG) rnd inp [IN IE] IV. assert (Q : 1 < q) by (destruct Hq; lia).
  destruct (C27_split_map pubs ins gs d Hok E) as (SN & SF & SK).
  unfold gates_to_r1cs in E. destruct (build_index pubs ins gs false) as [[m sp]|] eqn:EI; [|discriminate].
  destruct (system_names _ _ _ _ _ _ Hok EI) as [Hm [H1 _]]. set (names := wire_names pubs ins gs false) in *.
  unfold with_rand in E. destruct (all_some _ _) as [rs|] eqn:Ers; [|discriminate]. injection E as <-.
  cbn [index_map split_map rows] in *. rewrite (numbered_length _ _ Hm) in Ers.
  assert (OI : incl (out_names gs) names) by (intros x Hx; unfold names, wire_names; rewrite !in_app_iff; auto).
  assert (ND : NoDup (out_names gs)). { destruct Hm as [ND _]. unfold names, wire_names in ND. rewrite app_nil_r in ND. exact (NoDup_tail _ _ (NoDup_tail _ _ ND)). }
  assert (P1 : In "1"%string (pubs ++ ins)). { destruct Hok as (_ & P & _). apply in_app_iff. left. eapply nth_error_In; eauto. }
  assert (X0 : im_idx m rand_in = O) by (unfold im_idx; apply (numbered_none _ _ _ Hm) in Hr; now rewrite Hr).
  unfold calculate_witness. rewrite (start_rnd m sp rnd 0 inp X0).
  destruct (start_matches q names m Hm H1 a Ha 0 inp Hr) as [s0 [ES M0]].
  { intros x v Hx. split; [apply input_names, IE; change x with (fst (x, v)); now apply in_map|]. rewrite (IV _ _ Hx). reflexivity. }
  assert (C0 : Forall (canon q) (wit s0)).
  { eapply (start_all q (canon q)); [exact Q|intros v Hv; exact Hv|exact ES|unfold canon; lia|]. apply Forall_forall. intros [x v] Hx. cbn [snd]. rewrite (IV _ _ Hx). apply Ca. }
  assert (FN : forall k, bit_names gs k <> [] -> In k names).
  { intros k Hk. destruct (bit_names gs k) as [|b l] eqn:Eb; [easy|]. destruct (bit_names_in gs k 0 b) as (g & Ig & T & Ng & Fg & _); [now rewrite Eb|].
    apply in_split in Ig. destruct Ig as (pre & post & Eg). assert (R := HO pre g post Eg). unfold ready in R. rewrite T, Fg in R. destruct R as [R|R]; [now apply input_names|].
    apply OI. rewrite Eg, out_names_app. apply in_app_iff. auto. }
  destruct (put_splits_ok q Hq names m Hm a Ca gs DG sp s0 [] _ M0 C0) as (s1 & b & D & EP & M1 & C1 & UD & LD & PB & QB).
  { intros k zs Hk. assert (Fk := sm_find_in sp k zs SN Hk). split; [|rewrite <- Fk; apply SF]. apply FN, SK. change k with (fst (k, zs)). now apply in_map. }
  assert (ES' : start m sp 0 inp = Some (s1, b)).
  { clear - ES EP. unfold start in *. destruct (assign _ 0 1) as [t0|]; [|discriminate]. destruct (if Nat.eqb _ 0 then _ else _) as [t1|]; [|discriminate].
    destruct (put_inputs m t1 inp) as [t2|]; [|discriminate]. cbn [put_splits] in ES. injection ES as ->. exact EP. }
  rewrite ES'. cbn [lift bind].
  assert (BN : forall g, In g gs -> gtyp g = GBit -> gnonew g = false). { intros g Ig T. assert (N := proj1 (Forall_forall _ _) HN g Ig). cbn in N. now rewrite T in N. }
  assert (EN : forall j pos f, bm_get b j = Some (pos, f) -> exists g, In g gs /\ gtyp g = GBit /\ im_get m (gid g) = Some j /\ f = im_idx m (ident (grep g)) /\ a (gid g) = bit_of (a (ident (grep g))) pos).
  { intros j pos f Hj. destruct (QB j pos f Hj) as [Hj'|(k & x & -> & Gx & Nx)]; [discriminate|]. assert (Dx := DG k pos x Nx).
    destruct (bit_names_in gs k pos x Nx) as (g & Ig & T & Ng & <- & <-). exists g. auto. }
  destruct (split_steps q Hq gx G0 names m Hm H1 a Ha Ca b (fun x => In x (pubs ++ ins)) gs HO Ds Sh HA HV HN OI ND) with
    (post := gs) (pre := @nil gate) (s := s1) (rs := rs) (D := D) as (s' & D' & RS & M' & C' & K'); auto.
  - intros x Hx. split; [now apply input_names|]. eapply inputs_apart; eauto.
  - intros g Ig T. assert (Io : In (gid g) names) by (apply OI, out_names_in; auto).
    assert (Bj : bm_get b (im_idx m (gid g)) <> None).
    { apply PB. left. apply (find_in_indices sp (ident (grep g))). assert (Hb : In (gid g) (bit_names gs (ident (grep g)))).
      { unfold bit_names. apply in_map, filter_In. split; auto. rewrite T, (BN g Ig T), String.eqb_refl. reflexivity. }
      apply (in_map (im_get m)) in Hb. rewrite <- SF in Hb. apply in_map_iff in Hb. destruct Hb as (j & Ej & Hj). unfold im_idx. now rewrite <- Ej. }
    destruct (bm_get b (im_idx m (gid g))) as [[pos f]|] eqn:Eb; [|easy]. destruct (EN _ _ _ Eb) as (g' & Ig' & T' & Gg & -> & Ag).
    assert (Eg : gid g' = gid g). { apply (numbered_get _ _ _ _ Hm) in Gg. destruct (idx_get names m Hm _ Io) as [Ex _]. rewrite Gg in Ex. now injection Ex. }
    assert (g' = g) as -> by (apply (out_unique gs ND); auto). eauto.
  - intros x Hx NB. destruct (bm_get b (im_idx m x)) as [[pos f]|] eqn:Eb; auto. exfalso. destruct (EN _ _ _ Eb) as (g & Ig & T & Gg & _ & _). apply NB. exists g. split; auto. split; auto.
    apply (numbered_get _ _ _ _ Hm) in Gg. destruct (idx_get names m Hm _ (OI _ Hx)) as [Ex _]. rewrite Gg in Ex. now injection Ex.
  - intros x [Hx|[]]. apply UD. destruct (string_dec x "1") as [->|Nx]; auto. right. apply IE. auto.
  - intros x Hx. destruct (LD x Hx) as [[->|H]|H]; auto; left; left; auto. now apply IE in H.
  - rewrite RS. cbn [bind]. f_equal. destruct (proj1 M') as [L' _]. apply nth_ext with 0 0; [now rewrite map_length|]. intros i Hi. rewrite L' in Hi.
    destruct (nth_error names i) as [x|] eqn:Ex; [|apply nth_error_None in Ex; lia]. rewrite (nth_map_names names a i x Ex).
    assert (Ix := nth_error_In _ _ Ex). assert (Dx : D' x) by (apply K'; destruct (names_split _ _ _ _ Ix); [now left|now right]).
    assert (V := exact_value q names m Hm a Ca D' s' x M' C' Dx Ix). replace (im_idx m x) with i in V; [now apply nth_error_nth|].
    unfold im_idx. apply (numbered_get _ _ _ _ Hm) in Ex. now rewrite Ex.
Qed.
Print Assumptions C96_finds.

(** ** What the solver returns is a solution *)
Section First.
Variables (names : list string) (m : imap).
Hypothesis Hm : numbered names m.
Hypothesis H1 : nth_error names 0 = Some "1"%string.
Variable b : string.
Hypothesis Ib : In b names.
Hypothesis Nb : b <> "1"%string.
Notation n := (List.length names).
Notation j := (im_idx m b).
Lemma idx_apart y : In y names -> y <> b -> im_idx m y <> j.
Proof using Hm Ib.
  intros Iy N E. destruct (idx_get names m Hm y Iy) as [E1 _], (idx_get names m Hm b Ib) as [E2 _]. rewrite E in E1. congruence.
Qed.
Lemma idx_pos : j <> O.
Proof using Hm H1 Ib Nb. intros E. destruct (idx_get names m Hm b Ib) as [E2 _]. rewrite E in E2. congruence. Qed.
Lemma unit_zero i v : unit_at n i = Some v -> i <> j -> nth j v 0 = 0.
Proof using Type.
  unfold unit_at. intros E N. apply array_set_some in E. destruct E as (_ & _ & ->). destruct (Nat.eqb_spec j i); [congruence|]. unfold zeros. apply nth_repeat.
Qed.
Lemma vec_zero fs v : slots_distinct fs -> vec m n fs = Some v -> Forall (fac_in (fun y => y <> b)) fs -> nth j v 0 = 0.
Proof using Hm H1 Ib Nb.
  intros SD E F. destruct (vec_ok names m Hm H1 n fs v SD E) as [_ ->]. apply tsum_notin. intros C. rewrite map_map in C. apply in_map_iff in C. destruct C as (f & Ef & Hf).
  rewrite (dterm_slot names m Hm H1) in Ef. assert (K := insert_values_known _ _ _ _ E).
  revert Ef. apply idx_apart; [apply (get_in names m Hm); eapply slot_known; eauto|]. unfold slot. destruct (is_number f) eqn:Nf; [congruence|]. rewrite Forall_forall in F. exact (F f Hf Nf).
Qed.
Lemma row_zero h r : gate_distinct h -> gate_shape names h -> gate_row m n h = Some r -> ready (fun y => y <> b /\ In y names) h -> (adds_no_wire (gtyp h) = false -> gid h <> b /\ In (gid h) names) ->
  first_coef j [rl r; rr r; re r; ro r] = 0.
Proof using Hm H1 Ib Nb.
  intros (SL & SR & SE & SO) Sh E RD OW. unfold gate_row in E. assert (P := swap_perm h). destruct (swap_sides h) as [l r']. unfold mk_row in E.
  assert (Z0 : nth j (zeros n) 0 = 0) by (unfold zeros; apply nth_repeat). assert (P0 := idx_pos).
  assert (F : forall fs, Forall (fac_in (fun y => y <> b /\ In y names)) fs -> Forall (fac_in (fun y => y <> b)) fs) by (intros fs; apply fac_in_mono; tauto).
  assert (WZ : forall y v, y <> b -> vec m n (wire y 1) = Some v -> nth j v 0 = 0).
  { intros y v Ny Ev. refine (vec_zero _ v _ Ev _); [repeat constructor; intros []|]. constructor; [|constructor]. intros _. exact Ny. }
  assert (G : forall a1 a2 a3 a4, nth j a1 0 = 0 -> nth j a2 0 = 0 -> nth j a3 0 = 0 -> nth j a4 0 = 0 -> first_coef j [a1; a2; a3; a4] = 0).
  { intros a1 a2 a3 a4 A1 A2 A3 A4. cbn [first_coef]. rewrite A1, A2, A3, A4. reflexivity. }
  unfold ready, solvable in RD. unfold gate_shape in Sh. destruct (gtyp h) eqn:T; try contradiction.
  - destruct (OW eq_refl) as [O1 O2]. destruct (vec m n l) as [vl|] eqn:El; [|discriminate]. destruct (vec m n r') as [vr|] eqn:Er; [|discriminate].
    destruct (vec m n (gout h)) as [vo|] eqn:Eo; [|discriminate]. injection E as <-. cbn [rl rr re ro].
    assert (ZL : forall v, vec m n (gleft h) = Some v -> nth j v 0 = 0). { intros v Ev. destruct RD as [_ [[X _]|[_ X]]]; [apply (vec_zero (gleft h)); auto|rewrite X in Ev; now apply (WZ (gid h))]. }
    assert (ZR : forall v, vec m n (gright h) = Some v -> nth j v 0 = 0) by (intros v Ev; apply (vec_zero (gright h)); auto; apply F; apply RD).
    assert (ZO : nth j vo 0 = 0). { destruct RD as [_ [[_ X]|[X _]]]; [rewrite X in Eo; now apply (WZ (gid h))|apply (vec_zero (gout h)); auto]. }
    destruct P as [[-> ->]|[-> ->]]; apply G; auto.
  - destruct (OW eq_refl) as [O1 O2]. destruct (vec m n (gexp h)) as [ve|] eqn:Ee; [|discriminate]. destruct (unit_at _ _) as [vo|] eqn:Eo; [|discriminate]. injection E as <-. cbn [rl rr re ro].
    apply G; auto; [exact (vec_zero _ _ SE Ee (F _ RD))|]. refine (unit_zero _ _ Eo _). now apply idx_apart.
  - destruct (vec m n l) as [vl|] eqn:El; [|discriminate]. destruct (unit_at n 0) as [v1|] eqn:E1; [|discriminate].
    destruct (vec m n r') as [vr|] eqn:Er; [|discriminate]. injection E as <-. cbn [rl rr re ro]. destruct RD as [X Y].
    assert (ZL : forall v, vec m n (gleft h) = Some v -> nth j v 0 = 0) by (intros v Ev; apply (vec_zero (gleft h)); auto).
    assert (ZR : forall v, vec m n (gright h) = Some v -> nth j v 0 = 0) by (intros v Ev; apply (vec_zero (gright h)); auto).
    assert (Z1 : nth j v1 0 = 0) by (eapply unit_zero; eauto). destruct P as [[-> ->]|[-> ->]]; apply G; auto.
  - destruct (OW eq_refl) as [O1 O2]. assert (PE := swap_empty h Sh). destruct P as [[-> ->]|[-> ->]].
    all: destruct (vec m n _) as [vl|] eqn:El in E; [|discriminate]; destruct (unit_at n 0) as [v1|] eqn:E1; [|discriminate]; destruct (vec m n (gout h)) as [vo|] eqn:Eo; [|discriminate]; injection E as <-; cbn [rl rr re ro].
    all: destruct RD as [X Y]; rewrite Y in Eo; apply G; auto; try (eapply unit_zero; now eauto); try (now apply (WZ (gid h))).
    + apply (vec_zero (gleft h)); auto.
    + apply (vec_zero (gright h)); auto. rewrite Sh. constructor.
  - assert (PE := swap_empty h (proj1 Sh)). destruct P as [[-> ->]|[-> ->]].
    all: destruct (vec m n _) as [vl|] eqn:El in E; [|discriminate]; destruct (unit_at n 0) as [v1|] eqn:E1; [|discriminate]; destruct (unit_at n (im_idx m _)) as [vo|] eqn:Eo; [|discriminate]; injection E as <-; cbn [rl rr re ro].
    all: destruct RD as [X Y]; apply G; auto; try (eapply unit_zero; now eauto); try (eapply unit_zero; [exact Eo|apply idx_apart; apply Y]).
    + apply (vec_zero (gleft h)); auto.
    + apply (vec_zero (gright h)); auto. rewrite (proj1 Sh). constructor.
  - destruct (OW eq_refl) as [O1 O2]. destruct (array_set (zeros n) 0 (-1)) as [v1|] eqn:E1; [|discriminate]. destruct (array_set v1 (im_idx m (gid h)) 1) as [vl|] eqn:E2; [|discriminate].
    destruct (unit_at n (im_idx m (gid h))) as [vr|] eqn:E3; [|discriminate]. injection E as <-. cbn [rl rr re ro]. assert (NA := idx_apart (gid h) O2 O1).
    apply array_set_some in E1. destruct E1 as (_ & _ & A3). apply array_set_some in E2. destruct E2 as (_ & _ & B3).
    apply G; auto; [|eapply unit_zero; eauto]. rewrite B3, A3. destruct (Nat.eqb_spec j (im_idx m (gid h))); [congruence|]. destruct (Nat.eqb_spec j 0); [congruence|auto].
Qed.
Lemma row_own h r : gtyp h = GBit -> gid h = b -> gate_row m n h = Some r -> nth j (rl r) 0 = 1.
Proof using Type.
  intros T Eb E. unfold gate_row in E. destruct (swap_sides h) as [l r']. rewrite T in E. unfold mk_row in E.
  destruct (array_set (zeros n) 0 (-1)) as [v1|] eqn:E1; [|discriminate]. destruct (array_set v1 (im_idx m (gid h)) 1) as [vl|] eqn:E2; [|discriminate].
  destruct (unit_at n (im_idx m (gid h))) as [vr|] eqn:E3; [|discriminate]. injection E as <-. cbn [rl]. apply array_set_some in E2. destruct E2 as (_ & _ & B3). now rewrite B3, Eb, Nat.eqb_refl.
Qed.
End First.
Lemma first_coef_app j l l' : first_coef j l = 0 -> first_coef j (l ++ l') = first_coef j l'.
Proof. induction l as [|v l IH]; cbn [first_coef app]; auto. destruct (Z.eqb_spec (nth j v 0) 0) as [|N]; auto. intros H. contradiction. Qed.
Lemma all_some_split {A B} (f : A -> option B) l x l' r : all_some f (l ++ x :: l') = Some r -> exists r1 y r2, all_some f l = Some r1 /\ f x = Some y /\ r = r1 ++ y :: r2.
Proof.
  revert r. induction l as [|z l IH]; intros r; cbn [app all_some].
  - destruct (f x) as [y|]; [|discriminate]. destruct (all_some f l') as [r2|]; [|discriminate]. intros [= <-]. exists [], y, r2. auto.
  - destruct (f z) as [w|]; [|discriminate]. destruct (all_some f (l ++ x :: l')) as [r0|]; [|discriminate]. intros [= <-]. destruct (IH _ eq_refl) as (r1 & y & r2 & -> & -> & ->). exists (w :: r1), y, r2. auto.
Qed.
Lemma all_some_in {A B} (f : A -> option B) l : forall r, all_some f l = Some r -> forall y, In y r -> exists x pre post, l = pre ++ x :: post /\ f x = Some y.
Proof.
  induction l as [|z l IH]; intros r; cbn [all_some]; [intros [= <-] y []|]. destruct (f z) as [w|] eqn:E; [|discriminate]. destruct (all_some f l) as [r0|]; [|discriminate]. intros [= <-] y [<-|Hy].
  - exists z, [], l. auto.
  - destruct (IH _ eq_refl y Hy) as (x & pre & post & -> & Ex). exists x, (z :: pre), post. auto.
Qed.
(** A bit first occurs in its own row, with coefficient 1. *)
Theorem C96_first : forall pubs ins gs d, orderly pubs ins gs -> gates_to_r1cs pubs ins gs false = Some d ->
  forall j, In j (bit_indices (split_map d)) -> first_coef j (vectors (rows d)) = 1.
Proof.
  intros pubs ins gs d (Hok & Hr & Sh & Ds & HN & HO) E j Hj.
  destruct (C27_split_map pubs ins gs d Hok E) as (SN & SF & SK).
  unfold gates_to_r1cs in E. destruct (build_index pubs ins gs false) as [[m sp]|] eqn:EI; [|discriminate].
  destruct (system_names _ _ _ _ _ _ Hok EI) as [Hm [H1 HG]]. set (names := wire_names pubs ins gs false) in *.
  unfold with_rand in E. destruct (all_some _ _) as [rs|] eqn:Ers; [|discriminate]. injection E as <-.
  cbn [index_map split_map rows] in *. rewrite (numbered_length _ _ Hm) in Ers.
  unfold bit_indices in Hj. apply in_flat_map in Hj. destruct Hj as ([k zs] & Hk & Hj). cbn [snd] in Hj.
  assert (Fk := sm_find_in sp k zs SN Hk). assert (X := SF k). rewrite Fk in X. assert (Y : In (Some j) (map Some zs)) by now apply in_map. rewrite X in Y.
  apply in_map_iff in Y. destruct Y as (b & Gb & Ib). apply In_nth_error in Ib. destruct Ib as [i Ib]. destruct (bit_names_in _ _ _ _ Ib) as (g & Ig & T & Ng & _ & Eg).
  destruct (HG g Ig Ng) as [Nm N1]. rewrite Eg in Nm, N1. replace j with (im_idx m b) by (unfold im_idx; now rewrite Gb).
  assert (ND : NoDup (out_names gs)). { destruct Hm as [ND _]. unfold names, wire_names in ND. rewrite app_nil_r in ND. exact (NoDup_tail _ _ (NoDup_tail _ _ ND)). }
  assert (OI : incl (out_names gs) names) by (intros x Hx; unfold names, wire_names; rewrite !in_app_iff; auto).
  assert (IB : In b (out_names gs)) by (rewrite <- Eg; now apply out_names_in).
  destruct (in_split _ _ Ig) as (pre & post & Es). rewrite Es in Ers. destruct (all_some_split _ _ _ _ _ Ers) as (r1 & r & r2 & A1 & A2 & ->).
  assert (NP : forall h, In h pre -> gnonew h = false -> gid h <> b).
  { intros h Hh Nh C. rewrite Es, out_names_app in ND. apply (NoDup_disjoint _ _ ND b).
    - rewrite <- C. now apply out_names_in.
    - rewrite <- Eg. apply out_names_in; [now left|auto]. }
  unfold vectors. rewrite flat_map_app. rewrite first_coef_app.
  - cbn [flat_map app]. cbn [first_coef]. rewrite (row_own names m b g r T Eg A2). reflexivity.
  - assert (Z : forall y, In y r1 -> first_coef (im_idx m b) [rl y; rr y; re y; ro y] = 0).
    { intros y Hy. destruct (all_some_in _ _ _ A1 y Hy) as (h & p1 & p2 & Ep & Eh). assert (Hh : In h gs) by (rewrite Es, Ep; rewrite !in_app_iff; cbn; auto).
      assert (Nh := proj1 (Forall_forall _ _) HN h Hh). cbn in Nh.
      apply (row_zero names m Hm H1 b Nm N1 h y); [exact (proj1 (Forall_forall _ _) Ds h Hh)|exact (proj1 (Forall_forall _ _) Sh h Hh)|auto| |].
      - assert (Eh' : gs = p1 ++ h :: (p2 ++ g :: post)) by (rewrite Es, Ep, <- app_assoc; reflexivity). generalize (HO _ _ _ Eh'). apply ready_mono. intros x [Hx|Hx].
        + split; [|now apply input_names]. intros ->. apply (inputs_apart pubs ins gs m b Hm Hx IB).
        + split; [|apply OI; rewrite Eh', out_names_app; apply in_app_iff; auto]. intros ->. unfold out_names in Hx. apply in_map_iff in Hx. destruct Hx as (h' & Eb & Hx). apply filter_In in Hx. destruct Hx as [Hx Nx].
          apply (NP h'); auto; [rewrite Ep; apply in_app_iff; auto|]. now destruct (gnonew h').
      - intros A. rewrite <- Nh in A. split; [apply NP; auto; rewrite Ep; apply in_app_iff; right; now left|]. now apply OI, out_names_in. }
    clear - Z. induction r1 as [|y r1 IH]; [reflexivity|]. change (flat_map (fun r => [rl r; rr r; re r; ro r]) (y :: r1)) with ([rl y; rr y; re y; ro y] ++ flat_map (fun r => [rl r; rr r; re r; ro r]) r1).
    rewrite first_coef_app; [|apply Z; now left]. apply IH. intros z Hz. apply Z. now right.
Qed.
Print Assumptions C96_first.
Lemma bit_index pubs ins gs d : orderly pubs ins gs -> gates_to_r1cs pubs ins gs false = Some d ->
  forall j, In j (bit_indices (split_map d)) -> exists b, In b (out_names gs) /\ im_get (index_map d) b = Some j.
Proof.
  intros (Hok & _) E j Hj. destruct (C27_split_map pubs ins gs d Hok E) as (SN & SF & SK).
  unfold bit_indices in Hj. apply in_flat_map in Hj. destruct Hj as ([k zs] & Hk & Hj). cbn [snd] in Hj.
  assert (Fk := sm_find_in _ k zs SN Hk). assert (X := SF k). rewrite Fk in X. assert (Y : In (Some j) (map Some zs)) by now apply in_map. rewrite X in Y.
  apply in_map_iff in Y. destruct Y as (b & Gb & Ib). apply In_nth_error in Ib. destruct Ib as [i Ib]. destruct (bit_names_in _ _ _ _ Ib) as (g & Ig & T & Ng & _ & Eg).
  exists b. split; auto. rewrite <- Eg. now apply out_names_in.
Qed.
Lemma orderly_inputs pubs ins gs d inp : orderly pubs ins gs -> gates_to_r1cs pubs ins gs false = Some d -> supplied pubs ins inp -> inputs_ok (index_map d) (split_map d) inp.
Proof.
  intros Or E [IN IE]. assert (BI := bit_index _ _ _ _ Or E). destruct Or as (Hok & _).
  assert (N : numbered (wire_names pubs ins gs false) (index_map d) /\ nth_error (wire_names pubs ins gs false) 0 = Some "1"%string /\ forall g, In g gs -> gnonew g = false -> gid g <> "1"%string).
  { unfold gates_to_r1cs in E. destruct (build_index pubs ins gs false) as [[m sp]|] eqn:EI; [|discriminate]. destruct (system_names _ _ _ _ _ _ Hok EI) as [Hm [H1 HG]].
    unfold with_rand in E. destruct (all_some _ _) as [rs|]; [|discriminate]. injection E as <-. split; auto. split; auto. intros g Hg Ng. apply (HG g Hg Ng). }
  destruct N as (Hm & H1 & HG).
  assert (NI : forall x v, In (x, v) inp -> In x (pubs ++ ins) /\ x <> "1"%string) by (intros x v H; apply IE; change x with (fst (x, v)); now apply in_map).
  split; [|split].
  - assert (FI : forall e, In e inp -> In (fst e) (wire_names pubs ins gs false)) by (intros [x v] He; apply input_names; now apply (NI x v)).
    clear - IN FI Hm. induction inp as [|e inp IH]; cbn [map] in *; [constructor|]. inversion IN; subst. constructor; [|apply IH; auto; intros; apply FI; now right].
    intros C. apply in_map_iff in C. destruct C as (e' & Ee & He'). apply H1. apply in_map_iff. exists e'. split; auto.
    destruct (idx_get _ _ Hm _ (FI e' (or_intror He'))) as [A _], (idx_get _ _ Hm _ (FI e (or_introl eq_refl))) as [B _]. rewrite Ee in A. congruence.
  - intros C. destruct (BI _ C) as (b & Ib & Gb). apply (proj1 (numbered_get _ _ _ _ Hm)) in Gb. rewrite H1 in Gb. injection Gb as <-.
    unfold out_names in Ib. apply in_map_iff in Ib. destruct Ib as (g & Eg & Ig). apply filter_In in Ig. destruct Ig as [Ig Ng]. apply (HG g Ig); auto. now destruct (gnonew g).
  - intros x v Hx. destruct (NI x v Hx) as [X1 X2]. destruct (idx_get _ _ Hm x (input_names _ _ _ _ X1)) as [A _]. split.
    + intros C. rewrite C, H1 in A. congruence.
    + intros C. destruct (BI _ C) as (b & Ib & Gb). apply (proj1 (numbered_get _ _ _ _ Hm)) in Gb. rewrite A in Gb. injection Gb as <-. exact (inputs_apart pubs ins gs (index_map d) x Hm X1 Ib).
Qed.
(** So whatever the solver returns satisfies every gate, starts with 1 and keeps the inputs. *)
Theorem C96_sound : forall q gx, prime q -> gx 0 ==[q] 0 -> forall pubs ins gs d, orderly pubs ins gs -> gates_to_r1cs pubs ins gs false = Some d ->
  forall rnd inp W, supplied pubs ins inp -> calculate_witness q gx (index_map d) (split_map d) (rows d) rnd inp = Ok W ->
  Forall (row_ok q gx W) (rows d) /\ read (index_map d) W "1"%string = 1 /\ all_hold q gx (read (index_map d) W) gs /\
  forall y v, In (y, v) inp -> read (index_map d) W y = v.
Proof.
  intros q gx Hq G0 pubs ins gs d Or E rnd inp W SI HW. destruct (C32_dense q gx _ _ _ rnd inp W (orderly_inputs _ _ _ _ _ Or E SI) HW) as (LW & W0 & WI).
  assert (R : Forall (row_ok q gx W) (rows d)) by (eapply C30_sound; [exact Hq|exact HW|]; intros j Hj; right; eapply C96_first; eauto).
  assert (Or' := Or). destruct Or' as (Hok & _ & Sh & Ds & _).
  assert (N := proj1 (C27_numbering q pubs ins gs false Hok) d E). destruct N as (N1 & N2 & N3).
  assert (X0 : nth_error (wire_names pubs ins gs false) 0 = Some "1"%string).
  { destruct Hok as (_ & Hp & _). destruct pubs; [discriminate|]. cbn in Hp. now injection Hp as ->. }
  assert (A1 : read (index_map d) W "1"%string = 1) by (unfold read; apply N3 in X0; now rewrite X0).
  assert (RN : map (read (index_map d) W) (wire_names pubs ins gs false) = W).
  { apply (nth_ext _ _ 0 0); rewrite map_length; [congruence|]. intros i Hi. destruct (nth_error (wire_names pubs ins gs false) i) as [y|] eqn:Ey; [|apply nth_error_None in Ey; lia].
    erewrite nth_error_nth; [|rewrite nth_error_map, Ey; reflexivity]. unfold read. apply N3 in Ey. now rewrite Ey. }
  split; auto. split; auto. split.
  - apply (C28_system q gx _ pubs ins gs d); auto; [destruct Hq; lia|]. now rewrite RN.
  - intros y v Hy. specialize (WI y v Hy). unfold im_idx in WI. unfold read. destruct (im_get (index_map d) y) as [i|] eqn:Ei; auto.
    exfalso. assert (Hi : In y (wire_names pubs ins gs false)) by (apply input_names, SI; change y with (fst (y, v)); now apply in_map).
    apply In_nth_error in Hi. destruct Hi as [i Hi]. apply N3 in Hi. congruence.
Qed.
Print Assumptions C96_sound.

(** ** Adding a SPLIT *)
Definition bit_gates (x : factor) (n : nat) : list gate := map (fun i => Gate GBit (bit_name i (ident (ftok x))) [] [] [] [] false (ftok x)) (seq 0 n).
Lemma split_shape sort hash q c x c' n : (forall l, Permutation (sort l) l) -> 0 < q -> binary_length q n -> compile_split sort hash q c [x] = Some c' ->
  List.length (gates c') = (List.length (gates c) + S n)%nat ->
  exists g, gates c' = gates c ++ bit_gates x n ++ [g] /\ gtyp g = GSum /\ grep g = ftok x /\ gnonew g = true /\ gright g = [] /\ gexp g = [] /\ gout g = [] /\
    Permutation (gleft g) (bit_sum n (ident (ftok x))).
Proof.
  intros HS H0 HB E HL. apply binary_length_is in HB; [|exact H0]. unfold compile_split in E. rewrite HB in E. destruct (add_bits _ _ _ _ _) as [c1|] eqn:E1; [|discriminate].
  destruct (collect _ _ _ _ _) as [[c2 k]|] eqn:E2; [|discriminate]. injection E as <-.
  destruct (add_bits_spec sort hash _ _ _ _ E1) as [L [A _]]. rewrite seq_length in *.
  destruct (collect_inv sort hash _ _ _ _ _ E2) as [g' [W [<- [[-> _]|[-> _]]]]]; [lia|].
  cbn [gates] in *. rewrite app_length in HL. cbn [List.length] in HL. rewrite A by lia.
  exists g'. rewrite <- app_assoc. split; auto.
  assert (SE : sort [] = []) by (apply Permutation_nil; symmetry; apply HS).
  unfold with_id, set_id in W. cbn [gid gleft gright gexp gout gtyp gnonew grep] in W. destruct (prefix16 _) as [i|]; [|discriminate]. injection W as <-. cbn [gid gleft gright gexp gout gtyp gnonew grep].
  rewrite SE. auto 10.
Qed.
(** The solution of the larger list: the digits of the split wire on the new names. *)
Definition with_digits (a : assignment) (x : string) (n : nat) : assignment := fun y =>
  match find (fun i => String.eqb y (bit_name i x)) (seq 0 n) with Some i => bit_of (a x) i | None => a y end.
Lemma with_digits_bit a x n i : (i < n)%nat -> with_digits a x n (bit_name i x) = bit_of (a x) i.
Proof.
  intros H. unfold with_digits. destruct (find _ (seq 0 n)) as [j|] eqn:E.
  - apply find_some in E. destruct E as [_ E]. apply String.eqb_eq in E. apply bit_name_inj in E. now subst.
  - eapply find_none in E; [|apply in_seq; split; [|cbn; exact H]; lia]. rewrite String.eqb_refl in E. discriminate.
Qed.
Lemma with_digits_other a x n y : (forall i, (i < n)%nat -> y <> bit_name i x) -> with_digits a x n y = a y.
Proof.
  intros H. unfold with_digits. destruct (find _ (seq 0 n)) as [j|] eqn:E; auto. apply find_some in E. destruct E as [I E]. apply String.eqb_eq in E. apply in_seq in I. exfalso. apply (H j); [lia|auto].
Qed.
Lemma bit_gates_out x n : out_names (bit_gates x n) = map (fun i => bit_name i (ident (ftok x))) (seq 0 n).
Proof. unfold bit_gates, out_names. induction (seq 0 n) as [|i l IH]; cbn; auto. now rewrite IH. Qed.
Lemma bit_gates_names x n y : bit_names (bit_gates x n) y = if String.eqb (ident (ftok x)) y then map (fun i => bit_name i (ident (ftok x))) (seq 0 n) else [].
Proof.
  unfold bit_gates, bit_names. induction (seq 0 n) as [|i l IH]; cbn; [now destruct (String.eqb _ _)|]. destruct (String.eqb (ident (ftok x)) y) eqn:E; cbn; rewrite IH; reflexivity.
Qed.
Lemma bit_names_app gs gs' y : bit_names (gs ++ gs') y = bit_names gs y ++ bit_names gs' y.
Proof. unfold bit_names. now rewrite filter_app, map_app. Qed.

Section Add.
Variables (q : Z) (gx : Z -> Z) (pubs ins : list string) (gs : list gate) (a : assignment) (x : factor) (n : nat) (g : gate).
Hypothesis Hq : prime q.
Hypothesis G0 : gx 0 ==[q] 0.
Notation X := (ident (ftok x)).
Notation bits := (map (fun i => bit_name i X) (seq 0 n)).
Notation gs' := (gs ++ bit_gates x n ++ [g]).
Hypothesis HB : binary_length q n.
Hypothesis T : gtyp g = GSum.
Hypothesis R : grep g = ftok x.
Hypothesis Nn : gnonew g = true.
Hypothesis Gr : gright g = [].
Hypothesis Ge : gexp g = [].
Hypothesis Go : gout g = [].
Hypothesis Gl : Permutation (gleft g) (bit_sum n X).
Variables d d' : er1cs (list Z).
Hypothesis Or : orderly pubs ins gs.
Hypothesis Ed : gates_to_r1cs pubs ins gs false = Some d.
Hypothesis Ed' : gates_to_r1cs pubs ins gs' false = Some d'.
Hypothesis So : digit_solution q gx gs a.
Hypothesis Ix : In X (wire_names pubs ins gs false).
Hypothesis Fs : bit_names gs X = [].
Hypothesis Nr : ~ In rand_in (wire_names pubs ins gs' false).
Notation names := (wire_names pubs ins gs false).

Lemma names_added : wire_names pubs ins gs' false = names ++ bits.
Proof using Nn.
  unfold wire_names. rewrite !out_names_app, bit_gates_out. unfold out_names at 2. cbn [filter map]. rewrite Nn. cbn [negb map]. rewrite !app_nil_r, !app_assoc. reflexivity.
Qed.
Lemma names_ok_added : names_ok pubs ins gs' false.
Proof using Or. destruct Or as ((A & B & _) & _). split; auto. split; auto. discriminate. Qed.
Lemma bits_new y : In y names -> forall i, (i < n)%nat -> y <> bit_name i X.
Proof using Or Ed' Nn.
  intros Hy i Hi ->. assert (N := names_ok_added). assert (E := Ed'). unfold gates_to_r1cs in E. destruct (build_index pubs ins gs' false) as [[m sp]|] eqn:EI; [|discriminate].
  destruct (system_names _ _ _ _ _ _ N EI) as [[ND _] _]. rewrite names_added in ND. apply (NoDup_disjoint _ _ ND _ Hy). apply in_map_iff. exists i. split; auto. apply in_seq. lia.
Qed.
Notation a' := (with_digits a X n).
Lemma same_old : map a' names = map a names.
Proof using Or Ed' Nn. apply map_ext_in. intros y Hy. apply with_digits_other. now apply bits_new. Qed.
Lemma lin_old (V : string -> Prop) fs : (forall y, V y -> In y names) -> Forall (fac_in V) fs -> lin a' fs = lin a fs.
Proof using Or Ed' Nn. intros H F. apply (lin_ext V); auto. intros y Hy. apply with_digits_other. apply bits_new. auto. Qed.
Lemma added_names : map a' (wire_names pubs ins gs' false) = map a names ++ map (fun i => bit_of (a X) i) (seq 0 n).
Proof using Or Ed' Nn.
  rewrite names_added, map_app, same_old, map_map. f_equal. apply map_ext_in. intros i Hi. apply in_seq in Hi. apply with_digits_bit. lia.
Qed.
Lemma added_orderly : orderly pubs ins gs'.
Proof using Or Nr T R Nn Gr Ge Go Gl Ix.
  destruct Or as (N & _ & Sh & Ds & HN & HO). split; [apply names_ok_added|]. split; auto.
  assert (KX : Kp (fun y => In y (pubs ++ ins)) gs X) by (destruct (names_split _ _ _ _ Ix); [now left|now right]).
  assert (EQ := names_added). split; [|split; [|split]].
  - apply Forall_app. split; [|apply Forall_app; split; [|constructor; [|constructor]]].
    + eapply Forall_impl; [|exact Sh]. intros h. unfold gate_shape. rewrite EQ. destruct (gtyp h); auto. rewrite in_app_iff. tauto.
    + apply Forall_forall. intros h Hh. apply in_map_iff in Hh. destruct Hh as (i & <- & _). reflexivity.
    + unfold gate_shape. rewrite T, R, EQ. split; auto. apply in_app_iff. auto.
  - apply Forall_app. split; auto. apply Forall_app; split; [|constructor; [|constructor]].
    + apply Forall_forall. intros h Hh. apply in_map_iff in Hh. destruct Hh as (i & <- & _). unfold gate_distinct, slots_distinct. cbn. auto using NoDup_nil.
    + unfold gate_distinct, slots_distinct. rewrite Gr, Ge, Go. split; [|cbn; auto using NoDup_nil]. eapply Permutation_NoDup; [apply Permutation_map, Permutation_sym, Gl|].
      unfold bit_sum. rewrite map_map. change (fun i => slot (Fac (arg (bit_name i X)) (2 ^ Z.of_nat i))) with (fun i => bit_name i X).
      apply FinFun.Injective_map_NoDup; [|apply seq_NoDup]. intros i j. apply bit_name_inj.
  - apply Forall_app. split; auto. apply Forall_app; split; [|constructor; [|constructor]].
    + apply Forall_forall. intros h Hh. apply in_map_iff in Hh. destruct Hh as (i & <- & _). reflexivity.
    + now rewrite T, Nn.
  - intros pre h post E. destruct post as [|z post _] using rev_ind.
    + rewrite app_assoc in E. apply app_inj_tail in E. destruct E as [<- <-]. unfold ready. rewrite T, R. split.
      * apply Forall_forall. intros f Hf. apply (Permutation_in _ Gl) in Hf. apply in_map_iff in Hf. destruct Hf as (i & <- & Hi). intros _. right. rewrite out_names_app, bit_gates_out. apply in_app_iff. right. apply in_map_iff. exists i. auto.
      * destruct KX as [K|K]; [now left|right]. rewrite out_names_app. apply in_app_iff. auto.
    + rewrite app_assoc in E. change (pre ++ h :: post ++ [z]) with (pre ++ (h :: post) ++ [z]) in E. rewrite (app_assoc pre) in E. apply app_inj_tail in E. destruct E as [E _].
      assert (C : (exists p, gs = pre ++ h :: p) \/ exists p, pre = gs ++ p /\ bit_gates x n = p ++ h :: post).
      { clear - E. revert pre E. generalize (bit_gates x n). intros L. induction gs as [|k l IH]; intros pre E; cbn [app] in E; [right; exists pre; auto|].
        destruct pre as [|k' pre]; cbn [app] in E; injection E as <- E; [left; exists l; reflexivity|]. destruct (IH pre E) as [[p ->]|(p & -> & E')]; [left; exists p; reflexivity|right; exists p; auto]. }
      destruct C as [[p Ep]|(p & -> & Ep)]; [exact (HO _ _ _ Ep)|].
      assert (Hh : In h (bit_gates x n)) by (rewrite Ep; apply in_app_iff; right; now left). apply in_map_iff in Hh. destruct Hh as (i & <- & _). unfold ready. cbn [gtyp grep].
      destruct KX as [K|K]; [now left|right]. rewrite out_names_app. apply in_app_iff. auto.
Qed.
Lemma added_solution : digit_solution q gx gs' a'.
Proof using Hq G0 HB Or Ed Ed' So Ix Fs T R Nn Gl.
  destruct Or as (N & _ & Sh & Ds & HN & HO). destruct So as (A1 & Ca & HA & HV & DG). assert (Q0 : q <> 0) by (destruct Hq; lia).
  assert (I1 : In "1"%string names). { apply input_names. destruct N as (_ & P & _). apply in_app_iff. left. eapply nth_error_In; eauto. }
  assert (O : forall y, In y names -> a' y = a y) by (intros y Hy; apply with_digits_other; now apply bits_new).
  assert (B1 : a' "1"%string = 1) by (rewrite O; auto).
  assert (Cb : forall i, 0 <= bit_of (a X) i < q) by (intros i; destruct (bit_of_01 (a X) i) as [-> | ->]; destruct Hq; lia).
  split; auto. split; [|split; [|split]].
  - intros y. unfold with_digits. destruct (find _ _); auto.
  - apply Forall_app. split; [|apply Forall_app; split; [|constructor; [|constructor]]].
    + apply (C28_system q gx a' pubs ins gs d Q0 G0 B1 N Sh Ds Ed). rewrite same_old. apply (C28_system q gx a pubs ins gs d Q0 G0 A1 N Sh Ds Ed). exact HA.
    + apply Forall_forall. intros h Hh. apply in_map_iff in Hh. destruct Hh as (i & <- & Hi). apply in_seq in Hi. unfold gate_holds. cbn [gtyp gid]. rewrite with_digits_bit by lia.
      destruct (bit_of_01 (a X) i) as [-> | ->]; apply cong_eq; ring.
    + unfold gate_holds. rewrite T, R, (lin_perm a' _ _ Gl), (O X Ix). unfold bit_sum. rewrite lin_bit_sum.
      rewrite (zsum_map_ext _ (fun i => 2 ^ Z.of_nat i * Z.b2z (Z.testbit (a X) (Z.of_nat i)))).
      * rewrite bits_sum; [reflexivity|]. destruct HB. specialize (Ca X). lia.
      * intros i Hi. apply in_seq in Hi. rewrite with_digits_bit by lia. unfold bit_of. destruct (Z.testbit _ _); reflexivity.
  - apply Forall_app. split; [|apply Forall_app; split; [|constructor; [|constructor]]].
    + apply Forall_forall. intros h Hh Th. destruct (proj1 (Forall_forall _ _) HV h Hh Th) as [E|E]; auto. right.
      apply in_split in Hh. destruct Hh as (pre & post & Eg). assert (RD := HO pre h post Eg). unfold ready, solvable in RD. rewrite Th in RD. destruct RD as [RD _].
      rewrite (lin_old (Kp (fun y => In y (pubs ++ ins)) pre) (gright h)); auto. intros y [Hy|Hy]; [now apply input_names|]. unfold wire_names. rewrite !in_app_iff. right. right. left. rewrite Eg, out_names_app. apply in_app_iff. auto.
    + apply Forall_forall. intros h Hh. apply in_map_iff in Hh. destruct Hh as (i & <- & Hi). intros C. discriminate.
    + intros C. congruence.
  - intros y i b Hb. rewrite !bit_names_app, bit_gates_names in Hb. unfold bit_names at 2 in Hb. cbn [filter] in Hb. rewrite T in Hb. cbn [map] in Hb. rewrite app_nil_r in Hb.
    destruct (String.eqb_spec X y) as [<-|Ny].
    + rewrite Fs in Hb. cbn [app] in Hb. rewrite nth_error_map in Hb. destruct (nth_error (seq 0 n) i) as [j|] eqn:Ej; [|discriminate]. injection Hb as <-.
      assert (Li : (i < n)%nat) by (rewrite <- (seq_length n 0); apply nth_error_Some; congruence). apply (nth_error_nth _ _ 0%nat) in Ej. rewrite seq_nth in Ej by auto. cbn in Ej. subst j.
      rewrite with_digits_bit, (O X Ix) by auto. reflexivity.
    + rewrite app_nil_r in Hb. assert (D := DG y i b Hb). destruct (bit_names_in _ _ _ _ Hb) as (h & Ih & Th & Nh & <- & <-).
      assert (J1 : In (gid h) names) by (unfold wire_names; rewrite !in_app_iff; right; right; left; now apply out_names_in).
      assert (J2 : In (ident (grep h)) names).
      { apply in_split in Ih. destruct Ih as (pre & post & Eg). assert (RD := HO pre h post Eg). unfold ready in RD. rewrite Th in RD. destruct RD as [RD|RD]; [now apply input_names|].
        unfold wire_names. rewrite !in_app_iff. right. right. left. rewrite Eg, out_names_app. apply in_app_iff. auto. }
      rewrite (O _ J1), (O _ J2). exact D.
Qed.
End Add.

(** SPLIT of a wire, at the end: the solver returns the vector it returned before, followed by the binary digits of that wire's value. It is never the reason for an error. *)
Theorem C96_split : forall sort hash q gx, (forall l, Permutation (sort l) l) -> prime q -> gx 0 ==[q] 0 ->
  forall pubs ins c x c' n d d' a, binary_length q n -> compile_split sort hash q c [x] = Some c' -> List.length (gates c') = (List.length (gates c) + S n)%nat ->
  orderly pubs ins (gates c) -> In (ident (ftok x)) (wire_names pubs ins (gates c) false) -> bit_names (gates c) (ident (ftok x)) = [] ->
  ~ In rand_in (wire_names pubs ins (gates c') false) ->
  gates_to_r1cs pubs ins (gates c) false = Some d -> gates_to_r1cs pubs ins (gates c') false = Some d' -> digit_solution q gx (gates c) a ->
  orderly pubs ins (gates c') /\ (exists a', digit_solution q gx (gates c') a' /\ forall y, In y (wire_names pubs ins (gates c) false) -> a' y = a y) /\
  forall rnd inp, supplied pubs ins inp -> (forall y v, In (y, v) inp -> v = a y) ->
  exists W, calculate_witness q gx (index_map d) (split_map d) (rows d) rnd inp = Ok W /\
    calculate_witness q gx (index_map d') (split_map d') (rows d') rnd inp =
      Ok (W ++ map (fun i => if Z.testbit (a (ident (ftok x))) (Z.of_nat i) then 1 else 0) (seq 0 n)).
Proof.
  intros sort hash q gx HS Hq G0 pubs ins c x c' n d d' a HB E HL Or Ix Fs Nr Ed Ed' So.
  destruct (split_shape sort hash q c x c' n HS ltac:(destruct Hq; lia) HB E HL) as (g & Eg & T & R & Nn & Gr & Ge & Go & Gl). rewrite Eg in *.
  assert (Or' := added_orderly pubs ins (gates c) x n g T R Nn Gr Ge Go Gl Or Ix Nr).
  assert (So' := added_solution q gx pubs ins (gates c) a x n g Hq G0 HB T R Nn Gl d d' Or Ed Ed' So Ix Fs).
  split; auto. split.
  { eexists. split; [exact So'|]. intros y Hy. apply with_digits_other. exact (bits_new pubs ins (gates c) x n g Nn d' Or Ed' y Hy). }
  intros rnd inp SI IV. exists (map a (wire_names pubs ins (gates c) false)). split; [now apply C96_finds|].
  rewrite (C96_finds q gx Hq G0 pubs ins _ d' _ Or' Ed' So' rnd inp SI).
  - f_equal. exact (added_names pubs ins (gates c) a x n g Nn d' Or Ed').
  - intros y v Hy. rewrite (IV y v Hy). symmetry. apply with_digits_other. apply (bits_new pubs ins (gates c) x n g Nn d' Or Ed' y). apply input_names, SI. change y with (fst (y, v)). now apply in_map.
Qed.
Print Assumptions C96_split.

(** A compiled program followed by a SPLIT of one of its wires. *)
Lemma nzd_ext q gx p w a : (forall y, In y (prog_names p) -> w y = a y) -> no_zero_divisor q gx w p -> no_zero_divisor q gx a p.
Proof.
  intros Ev [Z1 Z2]. split; [|eapply divisors_ext; [|exact Z2]; intros y Hy; apply Ev; unfold prog_names; rewrite in_app_iff; auto].
  rewrite Forall_forall in *. intros e He. destruct (Z1 e He) as [Y1 Y2].
  assert (Ee : forall y, In y (vars (fst e)) \/ In y (vars (snd e)) -> w y = a y).
  { intros y Hy. apply Ev. unfold prog_names. rewrite in_app_iff. left. apply in_flat_map. exists e. split; auto. now rewrite in_app_iff. }
  split; (eapply divisors_ext; [|eassumption]); intros; eauto.
Qed.
Lemma program_orderly sort hash q p c f tr pubs ins : (forall l, Permutation (sort l) l) -> prime q -> execute sort hash q p = Some (c, f, tr) -> no_collision tr -> declared p pubs ins c ->
  ~ In rand_in (wire_names pubs ins (gates c) false) -> orderly pubs ins (gates c).
Proof.
  intros HS Hq HX NC HD Nr. assert (Hok := declared_names _ _ _ _ HD).
  destruct (good_exec sort HS hash q Hq (fun _ => 0) p c f tr pubs ins HX NC HD) as [HG Hf].
  assert (HD' := HD). destruct HD' as [D1 [D2 [D3 D4]]].
  assert (N1 : ~ In "1"%string (known c)). { apply D4, in_app_iff. left. destruct pubs; [discriminate|]. injection D2 as ->. now left. }
  assert (V1 : ~ In "1"%string (prog_names p)) by (intros C; now apply (proj2 (D3 _ C))).
  destruct (execute_slv sort HS hash q Hq (fun _ => 0) (fun x => In x (prog_names p)) V1 p c f tr HX NC) as [HO HV]; auto.
  { intros y Hy. now apply prog_inputs. }
  assert (K := Inv_kinds c tr (proj1 HG)).
  split; auto. split; auto. split; [exact (wf_shape (fun x => In x (prog_names p)) (wire_names pubs ins (gates c) false) c tr HG)|]. split; [exact (good_distinct _ c tr HG)|]. split.
  - apply Forall_forall. intros g Hg. assert (Kg := proj1 (Forall_forall _ _) K g Hg). cbn in Kg. assert (E : gnonew g = is_equal (gtyp g)).
    { assert (F : Forall (fun g => gnonew g = is_equal (gtyp g)) (gates c)) by apply HG. exact (proj1 (Forall_forall _ _) F g Hg). }
    rewrite E. destruct (gtyp g); auto.
  - intros pre g post E. assert (SV := HO pre g post E). assert (RD : ready (Kp (fun y => In y (prog_names p)) pre) g) by (unfold ready; unfold solvable in *; destruct (gtyp g); auto; contradiction).
    revert RD. apply ready_mono. intros y [Hy|Hy]; [left; now apply D3|now right].
Qed.
Lemma program_split : forall sort hash q gx, (forall l, Permutation (sort l) l) -> prime q -> gx 0 ==[q] 0 ->
  forall p c f tr pubs ins d, execute sort hash q p = Some (c, f, tr) -> no_collision tr -> declared p pubs ins c -> gates_to_r1cs pubs ins (gates c) false = Some d ->
  forall x c' n d', binary_length q n -> compile_split sort hash q c [x] = Some c' -> List.length (gates c') = (List.length (gates c) + S n)%nat ->
  In (ident (ftok x)) (wire_names pubs ins (gates c) false) -> ~ In rand_in (wire_names pubs ins (gates c') false) -> gates_to_r1cs pubs ins (gates c') false = Some d' ->
  forall w rnd inp W, supplied pubs ins inp -> (forall y v, In (y, v) inp -> v = w y /\ 0 <= v < q) -> no_zero_divisor q gx w p ->
  calculate_witness q gx (index_map d) (split_map d) (rows d) rnd inp = Ok W ->
  calculate_witness q gx (index_map d') (split_map d') (rows d') rnd inp =
    Ok (W ++ map (fun i => if Z.testbit (read (index_map d) W (ident (ftok x))) (Z.of_nat i) then 1 else 0) (seq 0 n)).
Proof.
  intros sort hash q gx HS Hq G0 p c f tr pubs ins d HX NC HD Ed x c' n d' HB Ec HL Ix Nr' Ed' w rnd inp W SI IV HZ HW.
  assert (Q0 : q <> 0) by (destruct Hq; lia). assert (Q : 1 < q) by (destruct Hq; lia). assert (Hok := declared_names _ _ _ _ HD).
  assert (Nr : ~ In rand_in (wire_names pubs ins (gates c) false)).
  { destruct (split_shape sort hash q c x c' n HS ltac:(lia) HB Ec HL) as (g & Eg & _ & _ & Nn & _). intros C. apply Nr'. rewrite Eg, (names_added pubs ins (gates c) x n g Nn). apply in_app_iff. auto. }
  destruct (C59_accepts sort hash q gx HS Hq G0 p c f tr pubs ins d HX NC HD Ed Nr w rnd inp SI (fun y v H => proj1 (IV y v H)) HZ) as [_ ACC].
  destruct (ACC W HW) as (RO & W0 & WR & _). clear ACC.
  assert (LW : List.length W = List.length (index_map d)).
  { unfold calculate_witness in HW. apply bind_ok in HW. destruct HW as [[s bm] [E H]]. apply lift_ok in E. apply bind_ok in H. destruct H as [s' [H Ew]]. injection Ew as <-.
    destruct (solve_rows_ext q gx bm _ s s' H) as [-> _]. apply (start_len _ _ _ _ _ _ E). }
  set (a := read (index_map d) W) in *.
  destruct (good_exec sort HS hash q Hq gx p c f tr pubs ins HX NC HD) as [HG Hf].
  assert (RN := read_names q p c pubs ins HD d W Ed LW). fold a in RN.
  assert (N := proj1 (C27_numbering q pubs ins (gates c) false Hok) d Ed).
  assert (X0 : nth_error (wire_names pubs ins (gates c) false) 0 = Some "1"%string).
  { destruct HD as [_ [D2 _]]. destruct pubs; [discriminate|]. exact D2. }
  assert (Ha : a "1"%string = 1). { destruct N as [_ [_ N3]]. unfold a, read. apply N3 in X0. now rewrite X0. }
  assert (Sh := wf_shape (fun x => In x (prog_names p)) (wire_names pubs ins (gates c) false) c tr HG).
  assert (Ds := good_distinct _ c tr HG).
  assert (HA : all_hold q gx a (gates c)).
  { apply (C28_system q gx a pubs ins (gates c) d Q0 G0 Ha Hok); auto. now rewrite RN. }
  assert (HD' := HD). destruct HD' as [D1 [D2 [D3 D4]]].
  assert (N1 : ~ In "1"%string (known c)). { apply D4, in_app_iff. left. destruct pubs; [discriminate|]. injection D2 as ->. now left. }
  assert (V1 : ~ In "1"%string (prog_names p)) by (intros C; now apply (proj2 (D3 _ C))).
  destruct (execute_slv sort HS hash q Hq gx (fun x => In x (prog_names p)) V1 p c f tr HX NC) as [HO HV]; auto.
  { intros y Hy. now apply prog_inputs. }
  assert (Ev : forall y, In y (prog_names p) -> w y = a y) by (intros y Hy; destruct (D3 y Hy); symmetry; auto).
  assert (HZ' : no_zero_divisor q gx a p) by exact (nzd_ext q gx p w a Ev HZ).
  assert (K := Inv_kinds c tr (proj1 HG)).
  assert (NB : forall y, bit_names (gates c) y = []).
  { intros y. unfold bit_names. clear - K. induction K as [|g gs Kg _ IH]; cbn; auto. destruct (gtyp g); auto; contradiction. }
  assert (SPL : split_map d = []).
  { destruct (C27_split_map pubs ins (gates c) d Hok Ed) as [_ [_ C]]. destruct (split_map d) as [|[k l] sp]; auto.
    exfalso. destruct (C k) as [C' _]. apply C'; [now left|]. apply NB. }
  assert (Or := program_orderly sort hash q p c f tr pubs ins HS Hq HX NC HD Nr).
  assert (So : digit_solution q gx (gates c) a).
  { split; auto. split; [|split; auto; split].
    - assert (CW : Forall (canon q) W).
      { unfold calculate_witness in HW. rewrite (start_rnd _ _ rnd 0) in HW.
        - apply (witness_all q gx (canon q) (index_map d) (split_map d) (rows d) 0 inp W Q); auto; [unfold canon; lia|]. apply Forall_forall. intros [y v] Hy. apply (IV y v Hy).
        - destruct N as [_ [_ N3]]. unfold im_idx. destruct (im_get (index_map d) rand_in) as [i|] eqn:Ei; auto. apply N3 in Ei. exfalso. apply Nr. eapply nth_error_In; eauto. }
      intros y. unfold a, read. destruct (im_get (index_map d) y) as [i|]; [|lia]. destruct (Nat.lt_ge_cases i (List.length W)) as [Li|Li]; [|rewrite nth_overflow by auto; lia].
      exact (proj1 (Forall_forall _ _) CW _ (nth_In W 0 Li)).
    - destruct HZ' as [Z1 Z2]. apply HV; auto.
    - intros y i b Hb. rewrite NB in Hb. now destruct i. }
  destruct (C96_split sort hash q gx HS Hq G0 pubs ins c x c' n d d' a HB Ec HL Or Ix (NB _) Nr' Ed Ed' So) as (_ & _ & FIN).
  destruct (FIN rnd inp SI) as (W' & E1 & E2).
  { intros y v Hy. transitivity (w y); [apply (IV y v Hy)|]. symmetry. destruct SI as [_ SI]. assert (Hi : In y (map fst inp)) by (change y with (fst (y, v)); now apply in_map). apply SI in Hi. apply WR; apply Hi. }
  rewrite HW in E1. injection E1 as <-. exact E2.
Qed.
Theorem C96_program : forall sort hash q gx, (forall l, Permutation (sort l) l) -> prime q -> gx 0 ==[q] 0 ->
  forall p c f tr pubs ins d, execute sort hash q p = Some (c, f, tr) -> no_collision tr -> declared p pubs ins c -> gates_to_r1cs pubs ins (gates c) false = Some d ->
  forall x c' n d', binary_length q n -> compile_split sort hash q c [x] = Some c' -> List.length (gates c') = (List.length (gates c) + S n)%nat ->
  In (ident (ftok x)) (wire_names pubs ins (gates c) false) -> ~ In rand_in (wire_names pubs ins (gates c') false) -> gates_to_r1cs pubs ins (gates c') false = Some d' ->
  forall w rnd inp, supplied pubs ins inp -> (forall y v, In (y, v) inp -> v = w y /\ 0 <= v < q) -> no_zero_divisor q gx w p ->
  forall W', calculate_witness q gx (index_map d') (split_map d') (rows d') rnd inp = Ok W' <->
    exists W, calculate_witness q gx (index_map d) (split_map d) (rows d) rnd inp = Ok W /\
      W' = W ++ map (fun i => if Z.testbit (read (index_map d) W (ident (ftok x))) (Z.of_nat i) then 1 else 0) (seq 0 n).
Proof.
  intros sort hash q gx HS Hq G0 p c f tr pubs ins d HX NC HD Ed x c' n d' HB Ec HL Ix Nr' Ed' w rnd inp SI IV HZ.
  assert (Q0 : q <> 0) by (destruct Hq; lia).
  assert (FW : forall W, calculate_witness q gx (index_map d) (split_map d) (rows d) rnd inp = Ok W -> calculate_witness q gx (index_map d') (split_map d') (rows d') rnd inp =
    Ok (W ++ map (fun i => if Z.testbit (read (index_map d) W (ident (ftok x))) (Z.of_nat i) then 1 else 0) (seq 0 n))).
  { intros W HW. eapply program_split; eauto. }
  intros W'. split; [|intros (W & HW & ->); now apply FW]. intros HW'.
  enough (X : exists W, calculate_witness q gx (index_map d) (split_map d) (rows d) rnd inp = Ok W) by (destruct X as [W HW]; exists W; split; auto; specialize (FW W HW); congruence).
  destruct (split_shape sort hash q c x c' n HS ltac:(destruct Hq; lia) HB Ec HL) as (g & Eg & T & R & Nn & Gr & Ge & Go & Gl). rewrite Eg in *.
  assert (Nr : ~ In rand_in (wire_names pubs ins (gates c) false)) by (intros C; apply Nr'; rewrite (names_added pubs ins (gates c) x n g Nn); apply in_app_iff; auto).
  assert (Or := program_orderly sort hash q p c f tr pubs ins HS Hq HX NC HD Nr).
  assert (Or' := added_orderly pubs ins (gates c) x n g T R Nn Gr Ge Go Gl Or Ix Nr').
  destruct (C96_sound q gx Hq G0 pubs ins _ d' Or' Ed' rnd inp W' SI HW') as (_ & A1 & AH & AI).
  set (a := read (index_map d') W') in *. unfold all_hold in AH. apply Forall_app in AH. destruct AH as [AH _].
  assert (Hok := declared_names _ _ _ _ HD). set (W1 := map a (wire_names pubs ins (gates c) false)).
  destruct (proj1 (C27_numbering q pubs ins (gates c) false Hok) d Ed) as (N1 & N2 & N3).
  assert (R1 : forall y, In y (wire_names pubs ins (gates c) false) -> read (index_map d) W1 y = a y).
  { intros y Hy. apply In_nth_error in Hy. destruct Hy as [i Hi]. unfold read. assert (Hi' := Hi). apply N3 in Hi'. rewrite Hi'. unfold W1. apply nth_error_nth. now rewrite nth_error_map, Hi. }
  destruct Or as (_ & _ & Sh & Ds & _).
  assert (RO : Forall (row_ok q gx W1) (rows d)) by (apply (C28_system q gx a pubs ins (gates c) d Q0 G0 A1 Hok Sh Ds Ed); exact AH).
  assert (IA : forall y v, In (y, v) inp -> read (index_map d) W1 y = v).
  { intros y v Hy. rewrite R1; [now apply AI|]. apply input_names, SI. change y with (fst (y, v)). now apply in_map. }
  assert (D3 := proj1 (proj2 (proj2 HD))).
  destruct (C59_finds sort hash q gx HS Hq G0 p c f tr pubs ins d HX NC HD Ed Nr W1) with (rnd := rnd) (inp := inp) as (W & HW & _); auto.
  - unfold W1. rewrite map_length. congruence.
  - unfold W1. destruct HD as [_ [D2 _]]. destruct pubs; [discriminate|]. injection D2 as ->. exact A1.
  - revert HZ. apply nzd_ext. intros y Hy. destruct (D3 y Hy) as [Y1 Y2]. assert (Hi := proj2 (proj2 SI y) (conj Y1 Y2)). apply in_map_iff in Hi. destruct Hi as ((y' & v) & Ey & Hi). cbn in Ey. subst y'.
    rewrite (IA y v Hi). symmetry. apply (IV y v Hi).
  - intros y v Hy. rewrite (IA y v Hy). apply cong_refl.
  - exists W. exact HW.
Qed.
Print Assumptions C96_program.

(** An input outside the range: congruent values are not treated alike. *)
Lemma one_split : exists c d, compile_split sort_factors toy_hash 101 (Coll [] []) (wire "x" 1) = Some c /\ List.length (gates c) = 8%nat /\
  orderly ["1"]%string ["x"]%string (gates c) /\ gates_to_r1cs ["1"]%string ["x"]%string (gates c) false = Some d /\
  map (fun v => calculate_witness 101 C58_gx (index_map d) (split_map d) (rows d) 0 [("x"%string, v)]) [100; -1; 5; 106] =
    [Ok [1; 100; 0; 0; 1; 0; 0; 1; 1]; Err; Ok [1; 5; 1; 0; 1; 0; 0; 0; 0]; Ok [1; 106; 0; 1; 0; 1; 0; 1; 1]].
Proof.
  destruct (compile_split sort_factors toy_hash 101 (Coll [] []) (wire "x" 1)) as [c|] eqn:E; [|vm_compute in E; discriminate].
  destruct (gates_to_r1cs ["1"]%string ["x"]%string (gates c) false) as [d|] eqn:Ed; [|vm_compute in E; injection E as <-; vm_compute in Ed; discriminate].
  exists c, d. split; auto. assert (L : List.length (gates c) = 8%nat) by (vm_compute in E; injection E as <-; vm_compute; reflexivity). split; auto. split.
  - destruct (split_shape sort_factors toy_hash 101 (Coll [] []) (Fac (arg "x") 1) c 7 sort_factors_perm ltac:(lia)) as (g & Eg & T & R & Nn & Gr & Ge & Go & Gl); auto.
    { split; vm_compute; [intros C; discriminate|reflexivity]. }
    rewrite Eg. apply added_orderly; auto.
    + split; [split; [repeat constructor; intros []|split; [reflexivity|discriminate]]|]. split; [intros C; cbn in C; nope C|]. repeat (split; [constructor|]).
      intros pre h post C. now destruct pre.
    + right. now left.
    + rewrite <- Eg. vm_compute in E. injection E as <-. intros C. cbn in C. nope C.
  - split; auto. vm_compute in E. injection E as <-. vm_compute in Ed. injection Ed as <-. vm_compute. reflexivity.
Qed.
Theorem C96_range_refuted : exists sort hash q gx pubs ins c d x v v', (forall l, Permutation (sort l) l) /\ prime q /\ gx 0 ==[q] 0 /\
  compile_split sort hash q (Coll [] []) (wire x 1) = Some c /\ orderly pubs ins (gates c) /\ gates_to_r1cs pubs ins (gates c) false = Some d /\ supplied pubs ins [(x, v)] /\ supplied pubs ins [(x, v')] /\
  v ==[q] v' /\ (exists W, calculate_witness q gx (index_map d) (split_map d) (rows d) 0 [(x, v)] = Ok W) /\
  calculate_witness q gx (index_map d) (split_map d) (rows d) 0 [(x, v')] = Err.
Proof.
  destruct one_split as (c & d & E & _ & O & Ed & H). injection H as H1 H2 _ _.
  exists sort_factors, toy_hash, 101, C58_gx, ["1"]%string, ["x"]%string, c, d, "x"%string, 100, (-1). split; [exact sort_factors_perm|]. split; [exact prime_101|].
  split; [reflexivity|]. split; auto. split; auto. split; auto.
  assert (S : forall v : Z, supplied ["1"]%string ["x"]%string [("x"%string, v)]).
  { intros v. split; [repeat constructor; intros []|]. intros y. cbn. split; [intros [<-|[]]; split; [auto|discriminate]|intros [[<-|[<-|[]]] N]; auto; now elim N]. }
  split; auto. split; auto. split; [exists 1; reflexivity|]. split; eauto.
Qed.
Print Assumptions C96_range_refuted.
(** Two congruent values, both accepted, with different digits. *)
Theorem C96_digits_refuted : exists sort hash q gx pubs ins c d x v v' W W', (forall l, Permutation (sort l) l) /\ prime q /\ gx 0 ==[q] 0 /\
  compile_split sort hash q (Coll [] []) (wire x 1) = Some c /\ orderly pubs ins (gates c) /\ gates_to_r1cs pubs ins (gates c) false = Some d /\ v ==[q] v' /\
  calculate_witness q gx (index_map d) (split_map d) (rows d) 0 [(x, v)] = Ok W /\ calculate_witness q gx (index_map d) (split_map d) (rows d) 0 [(x, v')] = Ok W' /\
  exists i, ~ nth i W 0 ==[q] nth i W' 0.
Proof.
  destruct one_split as (c & d & E & _ & O & Ed & H). injection H as _ _ H1 H2.
  exists sort_factors, toy_hash, 101, C58_gx, ["1"]%string, ["x"]%string, c, d, "x"%string, 5, 106. do 2 eexists. split; [exact sort_factors_perm|]. split; [exact prime_101|].
  split; [reflexivity|]. split; auto. split; auto. split; auto. split; [exists (-1); reflexivity|]. split; [exact H1|]. split; [exact H2|]. exists 2%nat.
  intros C. apply cong_mod_iff in C; [|lia]. vm_compute in C. discriminate.
Qed.
Print Assumptions C96_digits_refuted.

(** The program of C59_case (which has the remaining hypotheses), then SPLIT of its last wire, whose value is 32. *)
Example C96_case : exists c f tr d c' d', execute sort_factors toy_hash 101 C56_prog = Some (c, f, tr) /\ binary_length 101 7 /\
  compile_split sort_factors toy_hash 101 c (wire "1096046670515893" 1) = Some c' /\ List.length (gates c') = (List.length (gates c) + 8)%nat /\
  In "1096046670515893"%string (wire_names ["1"; "z"]%string ["x"; "y"; "z"]%string (gates c) false) /\
  ~ In rand_in (wire_names ["1"; "z"]%string ["x"; "y"; "z"]%string (gates c') false) /\
  gates_to_r1cs ["1"; "z"]%string ["x"; "y"; "z"]%string (gates c) false = Some d /\ gates_to_r1cs ["1"; "z"]%string ["x"; "y"; "z"]%string (gates c') false = Some d' /\
  calculate_witness 101 C58_gx (index_map d) (split_map d) (rows d) 0 [("x", 2); ("y", 3); ("z", 18)]%string = Ok [1; 18; 2; 3; 6; 6; 14; 32] /\
  calculate_witness 101 C58_gx (index_map d') (split_map d') (rows d') 0 [("x", 2); ("y", 3); ("z", 18)]%string = Ok ([1; 18; 2; 3; 6; 6; 14; 32] ++ [0; 0; 0; 0; 0; 1; 0]).
Proof.
  do 6 eexists. split; [vm_compute; reflexivity|]. split; [split; vm_compute; [intros C; discriminate|reflexivity]|]. split; [vm_compute; reflexivity|].
  split; [vm_compute; reflexivity|]. split; [vm_compute; do 7 right; left; reflexivity|]. split; [intros C; cbn in C; nope C|].
  split; [vm_compute; reflexivity|]. split; [vm_compute; reflexivity|]. split; vm_compute; reflexivity.
Qed.

(** The sparse solver on such a list returns what the dense one returns, unless a row with an unreduced output sum stops it (C95). *)
Require Verif.TwinProofs Verif.PropsTwin.
Theorem C96_sparse : forall q gx pubs ins gs d s, prime q -> (forall k, 0 <= k -> gx k = gx (k mod q)) -> orderly pubs ins gs ->
  Forall (numbers_apart (wire_names pubs ins gs false)) gs -> Forall (PropsTwin.gate_plain q) gs ->
  gates_to_r1cs pubs ins gs false = Some d -> gates_to_sparse_r1cs q pubs ins gs false = Some s -> forall rnd inp W,
  calculate_sparse_witness q gx (index_map s) (split_map s) (rows s) rnd inp = Ok W <->
  calculate_witness q gx (index_map d) (split_map d) (rows d) rnd inp = Ok W /\ Forall (TwinProofs.out_fits q W) (rows d).
Proof.
  intros q gx pubs ins gs d s Hq HX Or HA HP Ed Es rnd inp W. assert (Or' := Or). destruct Or' as (Hok & _ & Sh & Ds & _).
  rewrite (PropsTwin.C95_generated q gx pubs ins gs false d s rnd inp Hq HX Hok Sh Ds HA HP Ed Es W). split; [tauto|]. intros [HW HF]. split; [exact HW|]. split; [|exact HF].
  eapply C30_sound; [exact Hq|exact HW|]. intros j Hj. right. eapply C96_first; eauto.
Qed.
Print Assumptions C96_sparse.
Example C96_sparse_case : exists c s', compile_split sort_factors toy_hash 5 (Coll [] []) (wire "x" 1) = Some c /\ List.length (gates c) = 4%nat /\
  Forall (PropsTwin.gate_plain 5) (gates c) /\ gates_to_sparse_r1cs 5 ["1"]%string ["x"]%string (gates c) false = Some s' /\
  calculate_sparse_witness 5 C58_gx (index_map s') (split_map s') (rows s') 0 [("x"%string, 3)] = Ok [1; 3; 1; 1; 0].
Proof.
  do 2 eexists. split; [vm_compute; reflexivity|]. split; [reflexivity|]. split.
  - unfold PropsTwin.gate_plain. cbn [gates]. repeat (constructor; [cbn [gleft gright gexp gout app]; repeat (constructor; [unfold PropsTwin.coef_plain; vm_compute; intros C; try reflexivity; discriminate|]); try constructor|]); try constructor.
  - split; [vm_compute; reflexivity|]. vm_compute. reflexivity.
Qed.
