(** Proofs about SnarkModel. *)
Require Import ZArith Znumtheory NArith Bool Ascii String Lia Setoid Morphisms List.
Require Import Verif.Cong Verif.FqModel Verif.FqSpec Verif.FqProofs Verif.PolyModel Verif.PolyProofs Verif.InterpProofs.
Require Import Verif.AvlModel Verif.SparseModel Verif.FactorModel Verif.R1csModel Verif.R1csSpec Verif.SnarkModel Verif.SnarkSpec.
Import ListNotations.
Open Scope Z_scope.

(** ** Sums in exponents *)
Lemma gT_cong q G a b : lawful q G -> 0 <= a -> 0 <= b -> a ==[q] b -> gT G a = gT G b.
Proof. intros H A B E. unfold gT. now rewrite (law_base1 q G H a b). Qed.
Lemma base1_inj q G a b : lawful q G -> 0 <= a -> 0 <= b -> base1 G a = base1 G b -> a ==[q] b.
Proof. intros H A B E. apply (law_marshal q G H); auto. unfold gT. now rewrite E. Qed.

Definition terms (ks ws : list Z) : list Z := map (fun p => fst p * snd p) (combine ks ws).
Lemma terms_nonneg ks ws : Forall (Z.le 0) ks -> Forall (Z.le 0) ws -> Forall (Z.le 0) (terms ks ws).
Proof.
  revert ws; induction ks as [|k ks IH]; intros [|w ws] Hk Hw; try constructor.
  - cbn. inversion Hk; inversion Hw; subst. nia.
  - inversion Hk; inversion Hw; subst. now apply IH.
Qed.
Lemma terms_dot ks ws : zsum (terms ks ws) = dot ks ws.
Proof. revert ws; induction ks as [|k ks IH]; intros [|w ws]; cbn; auto. now rewrite <- IH. Qed.
Lemma zsum_nonneg l : Forall (Z.le 0) l -> 0 <= zsum l.
Proof. induction 1; cbn; lia. Qed.

Lemma smuls_map {A} (mul : A -> Z -> A) (base : Z -> A) :
  (forall a k, 0 <= a -> 0 <= k -> mul (base a) k = base (a * k)) ->
  forall ks ws, Forall (Z.le 0) ks -> Forall (Z.le 0) ws -> (List.length ws <= List.length ks)%nat ->
  smuls mul (map base ks) ws = Some (map base (terms ks ws)).
Proof.
  intros H. induction ks as [|k ks IH]; intros [|w ws] Hk Hw L; cbn in L; try lia; auto.
  inversion Hk; inversion Hw; subst. cbn. rewrite IH by (auto; lia). now rewrite H.
Qed.
Lemma smuls_short {A} (mul : A -> Z -> A) keys : forall ws, (List.length keys < List.length ws)%nat -> smuls mul keys ws = None.
Proof. induction keys as [|k ks IH]; intros [|w ws] L; cbn in *; try lia; auto. rewrite IH; auto. lia. Qed.

Section Sums.
Context {A : Type} (mul : A -> Z -> A) (acc : A -> A -> A) (base : Z -> A) (ok : A -> A -> Prop).
Hypothesis Hm : forall a k, 0 <= a -> 0 <= k -> mul (base a) k = base (a * k).
Hypothesis Ha : forall a b, 0 <= a -> 0 <= b -> ok (base a) (base b) -> acc (base a) (base b) = base (a + b).

Lemma acc_sum : forall ts s, 0 <= s -> Forall (Z.le 0) ts -> sum_if ok acc (base s) (map base ts) ->
  fold_left acc (map base ts) (base s) = base (s + zsum ts).
Proof.
  induction ts as [|t ts IH]; intros s Hs Ht S; cbn in *; [f_equal; lia|].
  inversion Ht; subst. destruct S as [S1 S2]. rewrite Ha in * by auto. rewrite IH by (auto; lia). f_equal; lia.
Qed.
Lemma total_ok ts : ts <> [] -> Forall (Z.le 0) ts -> sum_all ok acc (map base ts) ->
  total_of acc (map base ts) = Some (base (zsum ts)).
Proof.
  destruct ts as [|t ts]; intros N F S; [easy|]. inversion F; subst. cbn in *. f_equal. now rewrite acc_sum.
Qed.
Lemma ok_prefix ts x : sum_all ok acc (ts ++ [x]) -> ts <> [] -> sum_all ok acc ts /\
  (forall s, total_of acc ts = Some s -> ok s x).
Proof.
  destruct ts as [|t ts]; [easy|]. intros S _. cbn in S. revert t S. induction ts as [|u ts IH]; intros t S; cbn in *.
  - split; auto. intros s E. injection E as <-. tauto.
  - destruct S as [S1 S2]. destruct (IH _ S2) as [A1 A2]. split; auto.
Qed.
(** Sum of weighted keys. *)
Lemma msm_exp ks ws : Forall (Z.le 0) ks -> Forall (Z.le 0) ws -> (List.length ws <= List.length ks)%nat -> ws <> [] ->
  (forall ts, smuls mul (map base ks) ws = Some ts -> sum_all ok acc ts) ->
  msm mul acc (map base ks) ws = Some (base (dot ks ws)).
Proof.
  intros Hk Hw L N S. unfold msm. rewrite (smuls_map mul base) in * by auto.
  rewrite total_ok; auto; [now rewrite terms_dot| |now apply terms_nonneg].
  destruct ks, ws; cbn in *; try lia; try easy.
Qed.
(** With one more summand. *)
Lemma msm_exp_app ks ws x : Forall (Z.le 0) ks -> Forall (Z.le 0) ws -> (List.length ws <= List.length ks)%nat -> ws <> [] -> 0 <= x ->
  (forall ts, smuls mul (map base ks) ws = Some ts -> sum_all ok acc (ts ++ [base x])) ->
  msm mul acc (map base ks) ws = Some (base (dot ks ws)) /\ acc (base (dot ks ws)) (base x) = base (dot ks ws + x).
Proof.
  intros Hk Hw L N Hx S.
  assert (Tn : map base (terms ks ws) <> []) by (destruct ks, ws; cbn in *; try lia; easy).
  assert (SM := smuls_map mul base Hm ks ws Hk Hw L).
  destruct (ok_prefix _ _ (S _ SM) Tn) as [S1 S2].
  assert (M : msm mul acc (map base ks) ws = Some (base (dot ks ws))).
  { apply msm_exp; auto. intros ts E. rewrite SM in E. injection E as <-. exact S1. }
  split; auto. apply Ha; auto.
  - rewrite <- terms_dot. apply zsum_nonneg. now apply terms_nonneg.
  - apply S2; auto. unfold msm in M. rewrite SM in M. exact M.
Qed.
End Sums.

(** ** Columns *)
Lemma all_some_id (l : list Z) : all_some (fun x => x) (map Some l) = Some l.
Proof. induction l as [|x l IH]; cbn; auto. now rewrite IH. Qed.
Lemma transposed_spec n m M : (0 < n)%nat -> rectangular n m M ->
  exists t, transposed M = Some t /\ rectangular m n t /\
    forall i j, (i < n)%nat -> (j < m)%nat -> nth i (nth j t []) 0 = nth j (nth i M []) 0.
Proof.
  intros Hn R. destruct (transpose_spec n m M Hn R) as [t [E [R2 H]]]. exists t. split; auto.
  unfold transposed. rewrite E. clear. induction t as [|d t IH]; cbn; auto. now rewrite all_some_id, IH.
Qed.

Lemma dot_sum a : forall w, List.length a = List.length w -> dot a w = zsum (map (fun j => nth j w 0 * nth j a 0) (seq 0 (List.length w))).
Proof.
  induction a as [|x a IH]; intros [|y w] L; cbn in L; try lia; auto.
  cbn [dot List.length seq map zsum nth]. rewrite IH by lia. rewrite <- seq_shift, map_map. cbn. lia.
Qed.

Lemma pmul_const q c p k : coef (pmul q [c] p) k ==[q] c * coef p k.
Proof. rewrite pmul_coef, conv_cons. destruct k; rewrite ?conv_nil; apply cong_eq; ring. Qed.
Lemma fold_padd_coef q ps k : forall acc,
  coef (fold_left (padd q) ps acc) k ==[q] coef acc k + zsum (map (fun p => coef p k) ps).
Proof.
  induction ps as [|p ps IH]; intros acc; cbn [fold_left map zsum]; [apply cong_eq; ring|].
  rewrite IH, padd_coef. apply cong_eq; ring.
Qed.
Lemma fold_padd_length q n ps : Forall (fun p => List.length p = n) ps -> forall acc, (List.length acc <= n)%nat ->
  List.length (fold_left (padd q) ps acc) = match ps with [] => List.length acc | _ => n end.
Proof.
  induction 1 as [|p ps Hp F IH]; intros acc La; auto. cbn [fold_left]. rewrite IH by (rewrite padd_length; lia).
  rewrite padd_length. destruct ps; lia.
Qed.
Lemma zsum_combine (f : list Z -> Z) : forall w (ps : list (list Z)), (List.length w <= List.length ps)%nat ->
  zsum (map (fun p => fst p * f (snd p)) (combine w ps)) = zsum (map (fun i => nth i w 0 * f (nth i ps [])) (seq 0 (List.length w))).
Proof.
  induction w as [|c w IH]; intros [|p ps] L; cbn in L; try lia; auto.
  cbn [combine map zsum List.length seq nth fst snd]. rewrite IH by lia. rewrite <- seq_shift, map_map. reflexivity.
Qed.
Lemma fold_padd_reduced q ps : 0 < q -> forall acc, reduced q acc -> reduced q (fold_left (padd q) ps acc).
Proof. intros Hq. induction ps as [|p ps IH]; intros acc H; cbn; auto. apply IH. now apply padd_reduced. Qed.

(** The data points of a weighted sum of columns. *)
Lemma weighted_spec q n cols w : 0 < q -> Forall (fun c => List.length c = n) cols -> List.length w = List.length cols -> w <> [] ->
  exists d, weighted q cols w = Some d /\ List.length d = n /\ reduced q d /\
    forall i, nth i d 0 ==[q] zsum (map (fun j => nth j w 0 * nth i (nth j cols []) 0) (seq 0 (List.length w))).
Proof.
  intros Hq F L N. unfold weighted. rewrite plinear_combine_some by lia. eexists. split; [reflexivity|].
  unfold padd_polynomials. split; [|split].
  - rewrite (fold_padd_length q n).
    + destruct w, cols; cbn in *; try lia; easy.
    + apply Forall_forall. intros p Hp. apply in_map_iff in Hp. destruct Hp as [[c d] [<- Hp]].
      rewrite pmul_length. apply in_combine_r in Hp. rewrite Forall_forall in F. cbn. rewrite (F _ Hp). lia.
    + cbn. lia.
  - apply fold_padd_reduced; auto. constructor.
  - intros i. change (nth i ?l 0) with (coef l i). rewrite fold_padd_coef, coef_nil, Z.add_0_l, map_map.
    assert (Z := zsum_combine (fun c => nth i c 0) w cols ltac:(lia)). cbv beta in Z.
    unfold coef at 2. rewrite <- Z. apply zsum_map_cong. intros p _. apply pmul_const.
Qed.
(** With columns that are the transposed rows, the data points are the inner products. *)
Lemma weighted_rows q n m M t w : 0 < q -> (0 < n)%nat -> rectangular n m M -> transposed M = Some t -> List.length w = m -> w <> [] ->
  exists d, weighted q t w = Some d /\ List.length d = n /\ reduced q d /\
    forall i, (i < n)%nat -> nth i d 0 ==[q] dot (nth i M []) w.
Proof.
  intros Hq Hn R E L N. destruct (transposed_spec n m M Hn R) as [t' [E' [[R1 R2] H]]]. rewrite E in E'. injection E' as <-.
  destruct (weighted_spec q n t w) as [d [D1 [D2 [D3 D4]]]]; auto; [lia|].
  exists d. split; auto. split; auto. split; auto. intros i Hi. rewrite D4. rewrite dot_sum.
  - apply zsum_map_cong. intros j Hj. apply in_seq in Hj. rewrite H by lia. reflexivity.
  - destruct R as [Ra Rb]. rewrite Forall_forall in Rb. rewrite (Rb (nth i M [])); [lia|]. apply nth_In. lia.
Qed.

(** ** Interpolated columns *)
Lemma lagranges_spec q n : prime q -> Z.of_nat n <= q -> forall cols c, cache_ok q c -> Forall (fun d => List.length d = n) cols ->
  exists ps c', lagranges q c cols = Some (ps, c') /\ cache_ok q c' /\
    Forall2 (fun d p => List.length p = n /\ forall j, (j < n)%nat -> poly_at p (Z.of_nat j) ==[q] nth j d 0) cols ps.
Proof.
  intros Pq Hn. induction cols as [|d cols IH]; intros c Hc F; cbn [lagranges].
  - exists [], c. auto.
  - inversion F; subst. destruct (lagrange_spec q c d Pq Hn Hc) as [p [c1 [E [L [Hc1 H]]]]]. rewrite E.
    destruct (IH c1 Hc1) as [ps [c2 [E2 [Hc2 F2]]]]; auto. rewrite E2.
    exists (p :: ps), c2. split; auto.
Qed.
Lemma Forall2_nth {A B} (P : A -> B -> Prop) l l' a b : Forall2 P l l' -> forall i, (i < List.length l)%nat -> P (nth i l a) (nth i l' b).
Proof. induction 1; intros [|i] H1; cbn in *; try lia; auto. apply IHForall2. lia. Qed.
Lemma Forall2_len {A B} (P : A -> B -> Prop) l l' : Forall2 P l l' -> List.length l = List.length l'.
Proof. induction 1; cbn; auto. Qed.

(** Interpolation is linear: the polynomial through the weighted data takes at every point the
    weighted sum of the values of the column polynomials. *)
Lemma interp_linear q n cols ps w d p : prime q -> Z.of_nat n <= q -> List.length w = List.length cols ->
  Forall2 (fun d p => List.length p = n /\ forall j, (j < n)%nat -> poly_at p (Z.of_nat j) ==[q] nth j d 0) cols ps ->
  weighted q cols w = Some d -> w <> [] -> Forall (fun c => List.length c = n) cols ->
  interpolates q d p ->
  forall x, poly_at p x ==[q] zsum (map (fun j => nth j w 0 * poly_at (nth j ps []) x) (seq 0 (List.length w))).
Proof.
  intros Pq Hn L F E N FL I x. assert (Hq : 1 < q) by (destruct Pq; lia).
  assert (Lp := Forall2_len _ _ _ F).
  destruct (weighted_spec q n cols w) as [d' [E1 [E2 [_ E3]]]]; auto; try lia. rewrite E in E1. injection E1 as <-.
  destruct (combine_eval q ps w x) as [lc [C1 [C2 C3]]]; [lia|].
  assert (Lc : (List.length (padd_polynomials q lc) <= n)%nat).
  { unfold padd_polynomials. rewrite (fold_padd_length q n).
    - destruct lc; cbn; lia.
    - rewrite plinear_combine_some in C1 by lia. injection C1 as <-. apply Forall_forall. intros z Hz.
      apply in_map_iff in Hz. destruct Hz as [[c y] [<- Hz]]. rewrite pmul_length. apply in_combine_r in Hz. cbn.
      destruct (In_nth _ _ [] Hz) as [j [Hj <-]]. destruct (Forall2_nth _ _ _ [] [] F j) as [A _]; [lia|]. rewrite A. lia.
    - cbn. lia. }
  rewrite <- C3. apply poly_at_peq. destruct I as [I1 I2]. apply (interp_unique q n); auto; try lia.
  intros i Hi. rewrite I2, E3 by lia. destruct (combine_eval q ps w (Z.of_nat i)) as [lc' [D1 [_ D3]]]; [lia|].
  rewrite C1 in D1. injection D1 as <-. rewrite D3. apply zsum_map_cong. intros j Hj. apply in_seq in Hj.
  destruct (Forall2_nth _ _ _ [] [] F j) as [_ A]; [lia|]. rewrite A by auto. reflexivity.
Qed.

(** Values at the secret point. *)
Lemma value_sum q x w ps vs : List.length vs = List.length w -> (forall j, (j < List.length w)%nat -> nth j vs 0 ==[q] poly_at (nth j ps []) x) ->
  dot vs w ==[q] zsum (map (fun j => nth j w 0 * poly_at (nth j ps []) x) (seq 0 (List.length w))).
Proof.
  intros L H. rewrite dot_sum by auto. apply zsum_map_cong. intros j Hj. apply in_seq in Hj. rewrite H by lia. reflexivity.
Qed.
