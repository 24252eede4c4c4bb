(** Compiled programs give a constraint system that can be solved row by row: the facts of EndProofs and
    SolveProofs for whole programs. *)
Require Import ZArith Znumtheory Lia Bool Ascii String List Permutation.
Require Import Verif.Cong Verif.FqModel Verif.FqProofs Verif.FactorModel Verif.FactorSpec Verif.FactorProofs Verif.ExprModel Verif.ExprSpec Verif.ExprProofs
  Verif.ExprProofs2 Verif.R1csModel Verif.R1csSpec Verif.EndProofs Verif.SolveProofs
  Verif.ParserModel Verif.CircuitModel Verif.LangSpec Verif.LangHeap Verif.LangSym Verif.LangField.
Import ListNotations.
Local Open Scope string_scope.
Local Open Scope list_scope.
Local Open Scope nat_scope.

Section P.
Variable sort : factors -> factors.
Hypothesis sort_perm : forall l, Permutation (sort l) l.
Variable hash : string -> Z.
Variable q : Z.
Hypothesis Hq : prime q.
Variable gx : Z -> Z.
Variable fs : defs.
Variable V : string -> Prop.
Hypothesis V1 : ~ V "1".
Notation sym := (sym sort hash q).
Notation good := (good q).
Notation gr := LangField.gr.
Notation inv := LangField.inv.

Definition nice (s : collector * list gate) : Prop := Good V (fst s) (snd s) /\ Slv V (fst s).
Definition fin (s : collector * list gate) : Prop := no_collision (snd s) /\ ~ In "1" (known (fst s)).
Definition vin (s : collector * list gate) (f : factors) : Prop := good f /\ tidy f /\ Forall (fac_in (Ko V (fst s))) f.
Definition onto (s s' : collector * list gate) : Prop := incl (out_names (gates (fst s))) (out_names (gates (fst s'))).
Lemma onto_refl s : onto s s.
Proof. apply incl_refl. Qed.
Lemma onto_trans s s1 s2 : onto s s1 -> onto s1 s2 -> onto s s2.
Proof. apply incl_tran. Qed.
Lemma fin_back s s' : gr s s' -> fin s' -> fin s.
Proof. intros G [A B]. split; [eapply grows_nc; eauto|]. intros C. apply B. now apply (proj2 (proj2 (proj2 G))). Qed.
Lemma vin_onto s s' f : onto s s' -> vin s f -> vin s' f.
Proof. intros O (A & B & C). split; auto. split; auto. eapply fac_Ko; eauto. Qed.
Lemma vin_env s s' m : onto s s' -> all_env (vin s) m -> all_env (vin s') m.
Proof. intros O. apply Forall_impl. intros p. now apply vin_onto. Qed.
Lemma vin_list s s' l : onto s s' -> Forall (vin s) l -> Forall (vin s') l.
Proof. intros O. apply Forall_impl. intros p. now apply vin_onto. Qed.
Lemma vin_good s m : all_env (vin s) m -> all_env good m.
Proof. apply Forall_impl. intros p H. apply H. Qed.
Lemma vin_goods s l : Forall (vin s) l -> Forall good l.
Proof. apply Forall_impl. intros p H. apply H. Qed.
Lemma nice_inv s : nice s -> inv s.
Proof. intros [A _]. apply A. Qed.

(** Reading a variable. *)
Lemma reread_tidy x f : not1 x -> reread q x = Some f -> tidy f.
Proof.
  intros N. unfold reread. destruct (is_number x) eqn:E.
  - destruct (string_to_field _ _) as [[z b]|]; [|discriminate]. intros [= <-]. apply number_tidy.
  - destruct (mult x =? 1)%Z; intros [= <-]; apply wire_tidy; now apply N.
Qed.
Lemma reread_fac (P : string -> Prop) x f : fac_in P x -> reread q x = Some f -> Forall (fac_in P) f.
Proof.
  intros N. unfold reread. destruct (is_number x) eqn:E.
  - destruct (string_to_field _ _) as [[z b]|]; [|discriminate]. intros [= <-]. constructor; [intros X; discriminate|constructor].
  - destruct (mult x =? 1)%Z; intros [= <-]; apply wire_in; now apply N.
Qed.
Lemma reload_vin (P : string -> Prop) : forall u v, Forall not1 u -> Forall (fac_in P) u -> reload q u = Some v -> tidy v /\ Forall (fac_in P) v.
Proof.
  induction u as [|x u IH]; intros v N H; [discriminate|]. inversion N as [|? ? N1 N2]; subst. inversion H as [|? ? H1 H2]; subst.
  destruct u as [|y u].
  - intros E. split; [eapply reread_tidy; eauto|eapply reread_fac; eauto].
  - remember (y :: u) as t. cbn [reload]. rewrite Heqt. rewrite <- Heqt. destruct (reread q x) as [a|] eqn:Ea; [|discriminate].
    destruct (reload q t) as [b|] eqn:Eb; [|discriminate]. intros [= <-]. destruct (IH b N2 H2 eq_refl) as [A B].
    split; [apply add_factors_tidy; auto; eapply reread_tidy; eauto|]. apply add_factors_in; auto. eapply reread_fac; eauto.
Qed.
Lemma read_vin s u v : vin s u -> read_as q u v -> vin s v.
Proof.
  intros (A & B & C) R. split; [eapply good_read; eauto|]. unfold read_as in R. destruct (is_single_number u) eqn:E.
  - destruct u as [|x [|y u]]; try discriminate. rewrite R. split; [apply number_tidy|]. constructor; [intros X; discriminate|constructor].
  - apply reload_vin with (u := u); auto. apply B.
Qed.

Lemma elem_vin s u v : vin s u -> reload q u = Some v -> vin s v.
Proof. intros (A & B & C) R. split; [eapply good_reload; [apply A|exact R]|]. eapply reload_vin; [apply B|exact C|exact R]. Qed.

Lemma op_nice o s a b v s' : dop sym o s a b v s' -> nice s -> vin s a -> vin s b -> fin s' -> nice s' /\ onto s s' /\ vin s' v.
Proof.
  cbn [dop LangSym.sym]. intros E [HG HS] (A1 & A2 & A3) (B1 & B2 & B3) [NC N1].
  destruct (op_good sort sort_perm hash q gx V (fst s) o a b (snd s) (fst s') v (snd s') E HG (proj1 A1) (proj1 B1) A2 B2 A3 B3 N1 NC) as (X1 & X2 & X3 & X4).
  destruct (op_slv sort sort_perm hash q gx V (fst s) o a b (snd s) (fst s') v (snd s') E (proj1 HG) (proj1 A1) (proj1 B1) A3 B3 HS) as (X5 & _).
  split; [split; auto|]. split; auto. split; auto. eapply good_op; [exact A1|exact B1|exact E].
Qed.
Lemma out_not1 c tr i : Good V c tr -> ~ In "1" (known c) -> In i (out_names (gates c)) -> i <> "1".
Proof. intros HG N1 H ->. apply N1. destruct HG as [_ [_ [HM _]]]. apply in_rev. rewrite <- HM. now apply out_names_incl. Qed.
Lemma base_nice s a v s' : dbase sym s a v s' -> nice s -> vin s a -> fin s' -> nice s' /\ onto s s' /\ vin s' v.
Proof.
  intros E [HG HS] (A1 & A2 & A3) [NC N1]. destruct (base_step sort sort_perm hash q gx s a v s' E (proj1 HG)) as (_ & g & i & EG & Et & -> & Ei & EC).
  destruct (base_gate sort sort_perm hash q gx g a EG) as [Wg [Fg _]].
  destruct (with_id_sorted sort sort_perm hash (Ko V (fst s)) _ _ EG eq_refl) as [SL [SR [SE [SO _]]]]. cbn [gleft gright gexp gout] in SL, SR, SE, SO.
  destruct (with_id_tidy sort sort_perm hash _ _ EG) as [Tg Ng]; [repeat split; cbn; apply A2 || apply nil_tidy|].
  cbn [gnonew] in Ng. assert (T := with_id_gid sort hash _ _ EG). cbn in T.
  rewrite Et in NC.
  destruct (collect_good sort hash q gx V (fst s) (snd s) _ g _ (fst s') i HG EC EG (eq_sym Fg) Wg Tg) as [A [B C]]; auto.
  { now rewrite Ng, T. }
  { rewrite Fg. repeat split; apply fac_Ko_or; auto; first [apply SL; constructor|apply SR; constructor|apply SO; constructor]. }
  destruct (collect_slv sort hash q gx V (fst s) (snd s) _ g _ (fst s') i (proj1 HG) EC EG (eq_sym Fg) Wg HS) as [X _].
  { rewrite Fg. unfold solvable. rewrite T. now apply SE. }
  assert (Oi := B Ng). split; [split; auto; rewrite Et; exact A|]. split; [exact C|]. destruct E as [E _]. split; [eapply good_base; exact E|].
  split; [apply wire_tidy; eapply out_not1; eauto|]. apply wire_in. now right.
Qed.
Lemma equal_nice s a b s' : dequal sym s a b s' -> nice s -> vin s a -> vin s b -> fin s' -> nice s' /\ onto s s'.
Proof.
  intros E [HG HS] (A1 & A2 & A3) (B1 & B2 & B3) [NC N1]. destruct (equal_step sort sort_perm hash q gx s a b s' E (proj1 HG)) as (_ & g & i & EG & Et & Ei & EC).
  destruct (equal_gate sort sort_perm hash q gx g a b EG) as [Wg [Fg _]].
  destruct (with_id_sorted sort sort_perm hash (Ko V (fst s)) _ _ EG eq_refl) as [SL [SR [SE [SO _]]]]. cbn [gleft gright gexp gout] in SL, SR, SE, SO.
  destruct (with_id_tidy sort sort_perm hash _ _ EG) as [Tg Ng]; [repeat split; cbn; apply A2 || apply B2 || apply nil_tidy|].
  cbn [gnonew] in Ng. assert (T := with_id_gid sort hash _ _ EG). cbn in T. rewrite Et in NC.
  destruct (collect_good sort hash q gx V (fst s) (snd s) _ g _ (fst s') i HG EC EG (eq_sym Fg) Wg Tg) as [A [B C]]; auto.
  { now rewrite Ng, T. }
  { rewrite Fg. repeat split; apply fac_Ko_or; [now apply SL|now apply SR|apply SE; constructor|apply SO; constructor]. }
  destruct (collect_slv sort hash q gx V (fst s) (snd s) _ g _ (fst s') i (proj1 HG) EC EG (eq_sym Fg) Wg HS) as [X _].
  { rewrite Fg. unfold solvable. rewrite T. split; [now apply SL|now apply SR]. }
  split; [split; auto; rewrite Et; exact A|exact C].
Qed.
Lemma done_nice s v s' : ddone sym s v s' -> nice s -> all_opt (vin s) v -> fin s' -> nice s' /\ onto s s'.
Proof.
  intros E [HG HS] Hv [NC N1]. destruct (done_inv sort hash q s v s' E) as [[[E1 E2] _]|(f & i & -> & Es & EG & EC & Et)].
  { destruct s, s'. cbn in E1, E2. subst. split; [split; auto|apply onto_refl]. }
  destruct Hv as (A1 & A2 & A3). destruct (sum_gate_ok q gx f i (fun _ => 0%Z)) as (Wg & Fg & _). rewrite Et in NC.
  assert (Hi : i <> "1").
  { intros ->. apply N1. destruct (collect_Inv sort hash q gx (fst s) (snd s) _ _ _ _ _ (proj1 HG) EC EG (eq_sym Fg) Wg) as [_ [_ [Hi _]]]. exact Hi. }
  destruct (collect_good sort hash q gx V (fst s) (snd s) _ _ _ (fst s') i HG EC EG (eq_sym Fg) Wg) as [A [B C]]; auto.
  { split; [exact A2|]. split; [apply nil_tidy|]. split; [apply nil_tidy|]. now apply wire_tidy. }
  { rewrite Fg. repeat split; cbn [sum_gate gleft gright gexp gout]; try constructor; [now apply fac_Ko_or|intros _; right; auto|constructor]. }
  destruct (collect_slv sort hash q gx V (fst s) (snd s) _ _ _ (fst s') i (proj1 HG) EC EG (eq_sym Fg) Wg HS) as [X _].
  { rewrite Fg. unfold solvable. cbn [gtyp sum_gate gleft gout gid]. auto. }
  split; [split; auto; rewrite Et; exact A|exact C].
Qed.

Lemma nice_all :
  (forall m s e v s', ev sym fs m s e v s' -> all_env (vin s) m -> nice s -> fin s' -> nice s' /\ onto s s' /\ vin s' v) /\
  (forall m s es vs s', evs sym fs m s es vs s' -> all_env (vin s) m -> nice s -> fin s' -> nice s' /\ onto s s' /\ Forall (vin s') vs) /\
  (forall s f vs r s', call sym fs s f vs r s' -> Forall (vin s) vs -> nice s -> fin s' -> nice s' /\ onto s s' /\ all_opt (vin s') r) /\
  (forall m s t m' r b s', xs sym fs m s t m' r b s' -> all_env (vin s) m -> nice s -> fin s' -> nice s' /\ onto s s' /\ all_opt (vin s') r /\ all_env (vin s') m') /\
  (forall m s ts m' r s', xb sym fs m s ts m' r s' -> all_env (vin s) m -> nice s -> fin s' -> nice s' /\ onto s s' /\ all_opt (vin s') r /\ all_env (vin s') m') /\
  (forall m c b, test sym fs m c b -> True) /\ (forall m es l, idxs sym fs m es l -> True).
Proof.
  destruct (grow_all sort sort_perm hash q Hq gx fs) as (GE & GS & GC & GX & GB & _).
  assert (OI := onto_refl).
  apply sem_ind.
  - intros m s x v (z & b & Ez & ->) Em Hn HF. split; auto. split; auto.
    split; [|split; [apply number_tidy|constructor; [intros X; discriminate|constructor]]].
    split; [discriminate|]. split; [|cbn; lia]. constructor; auto. left. split; auto. cbn [ftok ident mult].
    unfold string_to_field in Ez. destruct (set_string10 x) as [y|]; [|discriminate]. injection Ez as <- _. exists y. split; auto. now rewrite Zmod_mod.
  - intros m s x u v Fx Rd Em Hn HF. split; auto. split; auto. eapply read_vin; [eapply all_find; eauto|exact Rd].
  - intros m s o a b s1 va s2 vb v s3 Da IHa Db IHb Do Em Hn HF.
    destruct (GE _ _ _ _ _ Da (vin_good _ _ Em) (nice_inv _ Hn)) as [G1 Ga]. destruct (GE _ _ _ _ _ Db (vin_good _ _ Em) (gr_inv _ _ G1)) as [G2 Gb].
    destruct (op_step sort sort_perm hash q Hq gx _ _ _ _ _ _ Do (gr_inv _ _ G2) Ga Gb) as [G3 _].
    assert (F2 := fin_back _ _ G3 HF). assert (F1 := fin_back _ _ G2 F2).
    destruct (IHa Em Hn F1) as (N1 & O1 & Va). destruct (IHb (vin_env _ _ _ O1 Em) N1 F2) as (N2 & O2 & Vb).
    destruct (op_nice _ _ _ _ _ _ Do N2 (vin_onto _ _ _ O2 Va) Vb HF) as (N3 & O3 & Vv). split; auto. split; auto. eapply onto_trans; [eapply onto_trans; eauto|eauto].
  - intros m s a va s1 v s2 Da IHa Do Em Hn HF.
    destruct (GE _ _ _ _ _ Da (vin_good _ _ Em) (nice_inv _ Hn)) as [G1 Ga]. destruct (base_step sort sort_perm hash q gx _ _ _ _ Do (gr_inv _ _ G1)) as [G2 _].
    assert (F1 := fin_back _ _ G2 HF). destruct (IHa Em Hn F1) as (N1 & O1 & Va).
    destruct (base_nice _ _ _ _ Do N1 Va HF) as (N2 & O2 & Vv). split; auto. split; auto. eapply onto_trans; eauto.
  - intros m s f args vs s1 v s2 Da IHa Dc IHc Em Hn HF.
    destruct (GS _ _ _ _ _ Da (vin_good _ _ Em) (nice_inv _ Hn)) as [G1 Ga]. destruct (GC _ _ _ _ _ Dc Ga (gr_inv _ _ G1)) as [G2 _].
    destruct (IHa Em Hn (fin_back _ _ G2 HF)) as (N1 & O1 & Va). destruct (IHc Va N1 HF) as (N2 & O2 & Vv). split; auto. split; auto. eapply onto_trans; eauto.
  - intros m s a es l u v _ _ Fx Re Em Hn HF. split; auto. split; auto. eapply elem_vin; [eapply all_find; eauto|exact Re].
  - intros m s Em Hn HF. split; auto.
  - intros m s e v s1 es vs s2 Da IHa Dc IHc Em Hn HF.
    destruct (GE _ _ _ _ _ Da (vin_good _ _ Em) (nice_inv _ Hn)) as [G1 Ga]. destruct (GS _ _ _ _ _ Dc (vin_good _ _ Em) (gr_inv _ _ G1)) as [G2 _].
    destruct (IHa Em Hn (fin_back _ _ G2 HF)) as (N1 & O1 & Va). destruct (IHc (vin_env _ _ _ O1 Em) N1 HF) as (N2 & O2 & Vv).
    split; auto. split; [eapply onto_trans; eauto|]. constructor; auto. eapply vin_onto; eauto.
  - intros s f ps body vs m r s1 _ _ _ IH Gv Hn HF. destruct (IH (all_combine _ _ _ Gv) Hn HF) as (N & O & Gr & _). auto.
  - intros m s x e v s1 _ IH Em Hn HF. destruct (IH Em Hn HF) as (N & O & Vv). split; auto. split; auto. split; auto.
    apply all_app; [eapply vin_env; eauto|]. constructor; auto.
  - intros m s x e v s1 _ IH _ Em Hn HF. destruct (IH Em Hn HF) as (N & O & Vv). split; auto. split; auto. split; auto.
    apply all_put; auto. eapply vin_env; eauto.
  - intros m s a b va s1 vb s2 s3 Da IHa Db IHb Do Em Hn HF.
    destruct (GE _ _ _ _ _ Da (vin_good _ _ Em) (nice_inv _ Hn)) as [G1 Ga]. destruct (GE _ _ _ _ _ Db (vin_good _ _ Em) (gr_inv _ _ G1)) as [G2 Gb].
    destruct (equal_step sort sort_perm hash q gx _ _ _ _ Do (gr_inv _ _ G2)) as [G3 _].
    assert (F2 := fin_back _ _ G3 HF). assert (F1 := fin_back _ _ G2 F2).
    destruct (IHa Em Hn F1) as (N1 & O1 & Va). destruct (IHb (vin_env _ _ _ O1 Em) N1 F2) as (N2 & O2 & Vb).
    destruct (equal_nice _ _ _ _ Do N2 (vin_onto _ _ _ O2 Va) Vb HF) as (N3 & O3). assert (O := onto_trans _ _ _ (onto_trans _ _ _ O1 O2) O3).
    split; auto. split; auto. split; [exact I|]. eapply vin_env; eauto.
  - intros m s f args vs s1 r s2 Da IHa Dc IHc Em Hn HF.
    destruct (GS _ _ _ _ _ Da (vin_good _ _ Em) (nice_inv _ Hn)) as [G1 Ga]. destruct (GC _ _ _ _ _ Dc Ga (gr_inv _ _ G1)) as [G2 _].
    destruct (IHa Em Hn (fin_back _ _ G2 HF)) as (N1 & O1 & Va). destruct (IHc Va N1 HF) as (N2 & O2 & Vv). assert (O := onto_trans _ _ _ O1 O2).
    split; auto. split; auto. split; auto. eapply vin_env; eauto.
  - intros m s e v s1 _ IH Em Hn HF. destruct (IH Em Hn HF) as (N & O & Vv). split; auto. split; auto. split; auto. eapply vin_env; eauto.
  - intros m s c x e body _ _ Em Hn HF. split; auto. split; auto. split; [exact I|auto].
  - intros m s c x e body m1 s1 v s2 m2 s3 _ _ Db IHb De IHe _ Df IHf Em Hn HF.
    destruct (GB _ _ _ _ _ _ Db (vin_good _ _ Em) (nice_inv _ Hn)) as (G1 & _ & E1). assert (E1' := all_firstn _ (List.length m) _ E1).
    destruct (GE _ _ _ _ _ De E1' (gr_inv _ _ G1)) as (G2 & Gv).
    destruct (GX _ _ _ _ _ _ _ Df (all_put _ _ x _ Gv E1') (gr_inv _ _ G2)) as (G3 & _).
    assert (F2 := fin_back _ _ G3 HF). assert (F1 := fin_back _ _ G2 F2).
    destruct (IHb Em Hn F1) as (N1 & O1 & _ & M1). destruct (IHe (all_firstn _ _ _ M1) N1 F2) as (N2 & O2 & Vv).
    destruct (IHf (all_put _ _ x _ Vv (all_firstn _ _ _ (vin_env _ _ _ O2 M1))) N2 HF) as (N3 & O3 & _ & M3).
    split; auto. split; [eapply onto_trans; [eapply onto_trans; eauto|eauto]|]. split; [exact I|auto].
  - intros m s c body _ _ Em Hn HF. split; auto. split; auto. split; [exact I|auto].
  - intros m s c body m1 r s1 _ _ _ IHb Em Hn HF. destruct (IHb Em Hn HF) as (N & O & Vr & M1). split; auto. split; auto. split; auto. now apply all_firstn.
  - intros m s x Em Hn HF. split; auto. split; auto. split; [exact I|auto].
  - intros m s a es e l v s1 _ _ _ IH _ Em Hn HF. destruct (IH Em Hn HF) as (N & O & Vv). split; auto. split; auto. split; auto.
    apply all_put; auto. eapply vin_env; eauto.
  - intros m s x Em Hn HF. split; auto. split; auto. split; [exact I|auto].
  - intros m s Em Hn HF. split; auto. split; auto. split; [exact I|auto].
  - intros m s t ts m1 v s1 _ IH Em Hn HF. auto.
  - intros m s t ts m1 v s1 m2 r s2 Dx IH1 Db IH2 Em Hn HF.
    destruct (GX _ _ _ _ _ _ _ Dx (vin_good _ _ Em) (nice_inv _ Hn)) as (G1 & _ & E1). destruct (GB _ _ _ _ _ _ Db E1 (gr_inv _ _ G1)) as (G2 & _).
    destruct (IH1 Em Hn (fin_back _ _ G2 HF)) as (N1 & O1 & _ & M1). destruct (IH2 M1 N1 HF) as (N2 & O2 & Vr & M2).
    split; auto. split; [eapply onto_trans; eauto|auto].
  - auto.
  - auto.
  - auto.
Qed.

Lemma main_nice m s ts v s' : mb sym fs m s ts v s' -> all_env (vin s) m -> nice s -> fin s' -> nice s' /\ onto s s' /\ all_opt (vin s') v.
Proof.
  destruct nice_all as (_ & _ & _ & NX & _ & _). destruct (grow_all sort sort_perm hash q Hq gx fs) as (_ & _ & _ & GX & _ & _).
  induction 1 as [|m s t ts m1 v s1 s2 Dx Dd|m s t ts m1 v s1 s2 u s3 Dx Dd Db IH]; intros Em Hn HF.
  - split; auto. split; [apply onto_refl|exact I].
  - destruct (GX _ _ _ _ _ _ _ Dx (vin_good _ _ Em) (nice_inv _ Hn)) as (G1 & _). assert (G2 := done_step sort hash q gx _ _ _ Dd (gr_inv _ _ G1)).
    destruct (NX _ _ _ _ _ _ _ Dx Em Hn (fin_back _ _ G2 HF)) as (N1 & O1 & Vr & M1). destruct (done_nice _ _ _ Dd N1 Vr HF) as (N2 & O2).
    split; auto. split; [eapply onto_trans; eauto|]. destruct v; auto. cbn in *. eapply vin_onto; eauto.
  - destruct (GX _ _ _ _ _ _ _ Dx (vin_good _ _ Em) (nice_inv _ Hn)) as (G1 & _ & E1). assert (G2 := done_step sort hash q gx _ _ _ Dd (gr_inv _ _ G1)).
    assert (G3 := main_grow sort sort_perm hash q Hq gx fs _ _ _ _ _ Db E1 (gr_inv _ _ G2)).
    assert (F2 := fin_back _ _ G3 HF). assert (F1 := fin_back _ _ G2 F2).
    destruct (NX _ _ _ _ _ _ _ Dx Em Hn F1) as (N1 & O1 & Vr & M1). destruct (done_nice _ _ _ Dd N1 Vr F2) as (N2 & O2).
    destruct (IH (vin_env _ _ _ O2 M1) N2 HF) as (N3 & O3 & Vv). split; auto. split; auto. eapply onto_trans; [eapply onto_trans; eauto|eauto].
Qed.

(** What main returns is a number, a wire, or the sum of a gate. *)
Lemma main_result m s ts v s' : mb sym fs m s ts v s' -> all_env good m -> inv s -> forall f, v = Some f -> f <> [] ->
  is_single_number f = true \/ (exists x, f = [x] /\ mult x = 1%Z /\ is_number x = false) \/
  exists i, In (sum_gate f i) (snd s') /\ In i (known (fst s')).
Proof.
  destruct (grow_all sort sort_perm hash q Hq gx fs) as (_ & _ & _ & GX & _ & _).
  induction 1 as [|m s t ts m1 v s1 s2 Dx Dd|m s t ts m1 v s1 s2 u s3 Dx Dd Db IH]; intros Em Hi f Ev Ne; [discriminate| |].
  - subst v. destruct (GX _ _ _ _ _ _ _ Dx Em Hi) as (G1 & _).
    destruct (done_inv sort hash q _ _ _ Dd) as [[_ X]|(f' & i & E & Es & EG & EC & Et)].
    + destruct (X f eq_refl) as [X1|[X1|X1]]; auto; contradiction.
    + injection E as <-. right. right. exists i. rewrite Et. split; [apply in_app_iff; right; now left|].
      destruct (sum_gate_ok q gx f i (fun _ => 0%Z)) as (Wg & Fg & _).
      destruct (collect_Inv sort hash q gx (fst s1) (snd s1) _ _ _ _ _ (gr_inv _ _ G1) EC EG (eq_sym Fg) Wg) as [_ [_ [Hk _]]]. exact Hk.
  - destruct (GX _ _ _ _ _ _ _ Dx Em Hi) as (G1 & _ & E1). assert (G2 := done_step sort hash q gx _ _ _ Dd (gr_inv _ _ G1)).
    apply IH; auto. exact (gr_inv _ _ G2).
Qed.
End P.
