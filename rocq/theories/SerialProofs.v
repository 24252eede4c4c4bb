(** The byte strings of Marshal and Unmarshal. *)
Require Import ZArith Znumtheory Bool List Lia Setoid Morphisms.
Require Import Verif.Cong Verif.Ext Verif.FqModel Verif.FqProofs Verif.Pocklington Verif.TowerModel Verif.TowerSpec Verif.TowerProofs
  Verif.FieldProofs Verif.FrobProofs Verif.FrobProofs2 Verif.FinalProofs Verif.PropsTower Verif.CurveModel Verif.CurveSpec Verif.JacProofs Verif.AssocProofs Verif.CurveGroup Verif.CurveProofs.
Import ListNotations.
Open Scope Z_scope.

Definition bytesn (n : nat) (x : Z) : list Z := map (byte_at x) (rev (seq 0 n)).
Lemma bytesn_S n x : bytesn (S n) x = byte_at x n :: bytesn n x.
Proof. unfold bytesn. rewrite seq_S, rev_app_distr. reflexivity. Qed.
Lemma bytesn_length n x : length (bytesn n x) = n.
Proof. unfold bytesn. now rewrite map_length, rev_length, seq_length. Qed.
Lemma byte_at_byte x i : is_byte (byte_at x i).
Proof. unfold is_byte, byte_at. apply Z.mod_pos_bound. lia. Qed.
Lemma bytesn_byte n x : Forall is_byte (bytesn n x).
Proof. unfold bytesn. apply Forall_map. apply Forall_forall. intros i _. apply byte_at_byte. Qed.
Lemma pow_S n : 256 ^ Z.of_nat (S n) = 256 * 256 ^ Z.of_nat n.
Proof. rewrite Nat2Z.inj_succ, Z.pow_succ_r by lia. reflexivity. Qed.
Lemma pow_pos n : 0 < 256 ^ Z.of_nat n.
Proof. apply Z.pow_pos_nonneg; lia. Qed.
Lemma bytesn_value n x : be_value (bytesn n x) = x mod 256 ^ Z.of_nat n.
Proof.
  induction n as [|n IH]; [cbn; now rewrite Z.mod_1_r|]. rewrite bytesn_S. cbn [be_value]. rewrite bytesn_length, IH, pow_S.
  assert (H := pow_pos n). unfold byte_at. set (w := 256 ^ Z.of_nat n) in *.
  rewrite (Z.mul_comm 256 w), Z.rem_mul_r by lia. ring.
Qed.
Lemma be_range l : Forall is_byte l -> 0 <= be_value l < 256 ^ Z.of_nat (length l).
Proof.
  induction 1 as [|b l B F IH]; [cbn; lia|]. cbn [be_value length]. rewrite pow_S. unfold is_byte in B.
  set (w := 256 ^ Z.of_nat (length l)) in *. nia.
Qed.
Lemma be_inj l l' : Forall is_byte l -> Forall is_byte l' -> length l = length l' -> be_value l = be_value l' -> l = l'.
Proof.
  intros F. revert l'. induction F as [|b l B F IH]; intros [|b' l'] F' L E; try discriminate; [reflexivity|].
  inversion F' as [|? ? B' F'']; subst. injection L as L. cbn [be_value] in E. rewrite L in E.
  assert (R := be_range l F). assert (R' := be_range l' F''). rewrite L in R. set (w := 256 ^ Z.of_nat (length l')) in *.
  assert (b = b') by nia. subst b'. f_equal. apply IH; auto. lia.
Qed.
Lemma fold_be l acc : fold_left (fun acc b => acc * 256 + b) l acc = acc * 256 ^ Z.of_nat (length l) + be_value l.
Proof.
  revert acc. induction l as [|b l IH]; intros acc; [cbn; lia|]. cbn [fold_left be_value length]. rewrite IH, pow_S. ring.
Qed.
Lemma set_bytes_be l : set_bytes l = be_value l.
Proof. unfold set_bytes. rewrite fold_be. lia. Qed.
Lemma bytes32_n x : bytes32 x = bytesn 32 x. Proof. reflexivity. Qed.
Lemma P_256 : P < 256 ^ Z.of_nat 32. Proof. reflexivity. Qed.
Lemma bytes32_value x : 0 <= x < P -> be_value (bytes32 x) = x.
Proof. intros H. rewrite bytes32_n, bytesn_value. apply Z.mod_small. assert (E := P_256). lia. Qed.
Lemma bytes32_length x : length (bytes32 x) = 32%nat. Proof. rewrite bytes32_n. apply bytesn_length. Qed.
Lemma bytes32_byte x : Forall is_byte (bytes32 x). Proof. rewrite bytes32_n. apply bytesn_byte. Qed.
Opaque bytes32.

(** ** Encodings. *)
Lemma encodes_app q m x xs : encodes q m xs -> 0 < q <= 256 ^ Z.of_nat 32 -> encodes q (bytes32 (x mod q) ++ m) (x :: xs).
Proof.
  intros H Q. exists (bytes32 (x mod q)), m. split; [reflexivity|]. split; [apply bytes32_length|]. split; [apply bytes32_byte|].
  split; [|exact H]. rewrite bytes32_n, bytesn_value. apply Z.mod_small. assert (R := Z.mod_pos_bound x q). lia.
Qed.
Lemma encodes_length q m xs : encodes q m xs -> length m = (32 * length xs)%nat.
Proof.
  revert m. induction xs as [|x xs IH]; intros m; cbn [encodes]; [now intros ->|].
  intros (f & m' & -> & L & _ & _ & H). rewrite app_length, L, (IH _ H). cbn [length]. lia.
Qed.
Lemma encodes_byte q m xs : encodes q m xs -> Forall is_byte m.
Proof.
  revert m. induction xs as [|x xs IH]; intros m; cbn [encodes]; [intros ->; constructor|].
  intros (f & m' & -> & _ & F & _ & H). apply Forall_app. auto.
Qed.
(** One byte string for each list of residues, one list of residues for each byte string. *)
Lemma encodes_iff q m m' xs xs' : 0 < q -> encodes q m xs -> encodes q m' xs' -> length xs = length xs' ->
  (m = m' <-> Forall2 (fun a b => a ==[q] b) xs xs').
Proof.
  intros Q. revert m m' xs'. induction xs as [|x xs IH]; intros m m' [|x' xs'] H H' L; try discriminate; cbn [encodes] in H, H'.
  - subst. split; intros; [constructor|reflexivity].
  - destruct H as (f & n & -> & LF & B & V & H). destruct H' as (f' & n' & -> & LF' & B' & V' & H'). injection L as L.
    specialize (IH n n' xs' H H' L). split; intros E.
    + assert (E1 : f = f' /\ n = n').
      { clear -E LF LF'. rewrite <- LF' in LF. clear LF'. revert f' E LF. induction f as [|a f IH]; intros [|a' f'] E LF; try discriminate; [auto|].
        cbn in E. injection E as -> E. injection LF as LF. destruct (IH f' E LF) as [-> ->]. auto. }
      destruct E1 as [-> E1]. constructor; [|now apply IH]. apply cong_mod_iff; lia.
    + inversion E as [|? ? ? ? C F]; subst. f_equal; [|now apply IH]. apply be_inj; auto; [lia|].
      rewrite V, V'. apply cong_mod_iff in C; lia.
Qed.
Lemma chunk_0 f m : length f = 32%nat -> chunk 0 (f ++ m) = f.
Proof. intros L. unfold chunk. rewrite Nat.mul_0_r, skipn_O, firstn_app, L, Nat.sub_diag, firstn_O, app_nil_r, <- L. apply firstn_all. Qed.
Lemma chunk_S k f m : length f = 32%nat -> chunk (S k) (f ++ m) = chunk k m.
Proof.
  intros L. unfold chunk. rewrite skipn_app, skipn_all2 by lia. cbn [app]. do 2 f_equal. lia.
Qed.
Lemma chunk_nonneg k m : Forall is_byte m -> 0 <= set_bytes (chunk k m).
Proof.
  intros F. rewrite set_bytes_be. apply be_range. unfold chunk.
  rewrite <- (firstn_skipn (32 * k) m) in F. apply Forall_app in F. destruct F as [_ F].
  rewrite <- (firstn_skipn 32 (skipn _ m)) in F. apply Forall_app in F. exact (proj1 F).
Qed.
Lemma encodes_0 q m x xs : encodes q m (x :: xs) -> set_bytes (chunk 0 m) = x mod q.
Proof. intros (f & m' & -> & L & _ & V & _). now rewrite chunk_0, set_bytes_be. Qed.
Lemma encodes_S q m x xs : encodes q m (x :: xs) -> exists m', encodes q m' xs /\ forall k, chunk (S k) m = chunk k m'.
Proof. intros (f & m' & -> & L & _ & _ & H). exists m'. split; auto. intros k. now apply chunk_S. Qed.
(** Cut into fields of 32 bytes, any byte string encodes the numbers in them if these are below q. *)
Lemma encodes_cut q n m : 0 < q -> Forall is_byte m -> length m = (32 * n)%nat -> (forall k, (k < n)%nat -> set_bytes (chunk k m) < q) ->
  encodes q m (map (fun k => set_bytes (chunk k m)) (seq 0 n)).
Proof.
  intros Q. revert m. induction n as [|n IH]; intros m F L H; [destruct m; [reflexivity|discriminate]|].
  set (f := firstn 32 m). set (m' := skipn 32 m). assert (E : m = f ++ m') by (symmetry; apply firstn_skipn).
  assert (LF : length f = 32%nat) by (apply firstn_length_le; lia).
  assert (LM : length m' = (32 * n)%nat) by (unfold m'; rewrite skipn_length; lia).
  rewrite E in F. apply Forall_app in F. destruct F as [F1 F2].
  assert (C : forall k, chunk (S k) m = chunk k m') by (intros k; rewrite E; now apply chunk_S).
  cbn [seq map]. exists f, m'. split; [exact E|]. split; [exact LF|]. split; [exact F1|].
  assert (V : set_bytes (chunk 0 m) = be_value f) by (rewrite E, chunk_0, set_bytes_be; auto).
  split.
  - rewrite V. symmetry. apply Z.mod_small. split; [apply be_range; auto|]. rewrite <- V. apply H. lia.
  - rewrite <- seq_shift, map_map. erewrite map_ext; [apply IH; auto|]; cbv beta.
    + intros k K. rewrite <- C. apply H. lia.
    + intros k. now rewrite C.
Qed.

(** ** G1: 64 zero bytes for infinity, else x and y. *)
Definition enc1 (m : list Z) (p : apoint FP) : Prop :=
  match p with None => m = repeat 0 64 | Some (x, y) => encodes P m [x; y] end.
Lemma P_enc : 0 < P <= 256 ^ Z.of_nat 32. Proof. split; [reflexivity|discriminate]. Qed.
Lemma zeros_enc n : encodes P (repeat 0 (32 * n)) (repeat 0 n).
Proof.
  induction n as [|n IH]; [reflexivity|]. exists (repeat 0 32), (repeat 0 (32 * n)). split.
  - rewrite <- repeat_app. f_equal. lia.
  - split; [reflexivity|]. split; [apply Forall_forall; intros x H; apply repeat_spec in H; subst; split; reflexivity || lia|].
    split; [reflexivity|exact IH].
Qed.
Lemma enc1_zero x y : encodes P (repeat 0 64) [x; y] <-> x ==[P] 0 /\ y ==[P] 0.
Proof.
  assert (Z := zeros_enc 2). change (encodes P (repeat 0 64) [0; 0]) in Z. split.
  - intros H. assert (F := proj1 (encodes_iff P _ _ _ _ P_pos H Z eq_refl) eq_refl). inversion F as [|? ? ? ? A F']; subst. inversion F'; subst. auto.
  - intros [A B]. exists (repeat 0 32), (repeat 0 32). apply cong_mod_iff in A, B; [|discriminate..]. rewrite A.
    split; [reflexivity|]. split; [reflexivity|]. split; [apply Forall_forall; intros z H; apply repeat_spec in H; subst; split; reflexivity || lia|]. split; [reflexivity|].
    exists (repeat 0 32), []. rewrite B. split; [reflexivity|]. split; [reflexivity|]. split; [apply Forall_forall; intros z H; apply repeat_spec in H; subst; split; reflexivity || lia|].
    split; reflexivity.
Qed.
Lemma E1_nz x y : E1 (Some (x, y)) -> ~ (x ==[P] 0 /\ y ==[P] 0).
Proof.
  intros O [X Y]. change (y * y ==[P] x * x * x + 3) in O. rewrite X, Y in O. symmetry in O. revert O. change (~ 3 ==[P] 0). now apply small_nz.
Qed.
Lemma enc1_unique m p r : E1 p -> E1 r -> enc1 m p -> enc1 m r -> apoint_eq p r.
Proof.
  intros O1 O2. destruct p as [[x y]|], r as [[x' y']|]; cbn [enc1]; intros H H'; [| | |exact I].
  - assert (F := proj1 (encodes_iff P _ _ _ _ P_pos H H' eq_refl) eq_refl). inversion F as [|? ? ? ? A F']; subst. inversion F'; subst. split; auto.
  - subst. apply enc1_zero in H. exact (E1_nz _ _ O1 H).
  - subst. apply enc1_zero in H'. exact (E1_nz _ _ O2 H').
Qed.
Lemma enc1_fun m m' p r : enc1 m p -> enc1 m' r -> apoint_eq p r -> m = m'.
Proof.
  destruct p as [[x y]|], r as [[x' y']|]; cbn [enc1 apoint_eq]; intros H H' E; try contradiction; [|congruence].
  apply (encodes_iff P _ _ _ _ P_pos H H' eq_refl). destruct E. repeat constructor; auto.
Qed.
Lemma g1_marshal_ok e p : c_is e p -> enc1 (g1_marshal e) p.
Proof.
  intros H. assert (I := inf_none e p H). destruct (c_make_affine_ok 0 e p H) as (_ & _ & A). unfold g1_marshal.
  destruct (c_is_infinity e) eqn:E.
  - rewrite (proj1 I eq_refl). reflexivity.
  - destruct p as [[x y]|]; [|discriminate (proj2 I eq_refl)]. destruct (A x y eq_refl) as (_ & X & Y). cbv zeta. cbn [enc1].
    apply cong_mod_iff in X, Y; [|discriminate..]. rewrite X, Y. apply encodes_app; [|exact P_enc].
    rewrite <- (app_nil_r (bytes32 _)). apply encodes_app; [reflexivity|exact P_enc].
Qed.
Lemma g1_unmarshal_ok m : Forall is_byte m ->
  match g1_unmarshal m with
  | Some e => exists p, E1 p /\ enc1 m p /\ c_is e p
  | None => forall p, E1 p -> ~ enc1 m p
  end.
Proof.
  intros F. unfold g1_unmarshal. destruct (Nat.eqb (length m) 64) eqn:L; cbn [negb].
  2:{ apply Nat.eqb_neq in L. intros [[x y]|] O H; apply L; [now rewrite (encodes_length _ _ _ H)|rewrite H; reflexivity]. }
  apply Nat.eqb_eq in L. cbv zeta.
  assert (NE : forall p k, enc1 m p -> (k < 2)%nat -> set_bytes (chunk k m) < P).
  { intros p k H K. destruct p as [[x y]|]; cbn [enc1] in H.
    - destruct k as [|[|k]]; [rewrite (encodes_0 _ _ _ _ H); apply Z.mod_pos_bound, P_pos| |lia].
      destruct (encodes_S _ _ _ _ H) as (m' & H' & C). rewrite C, (encodes_0 _ _ _ _ H'). apply Z.mod_pos_bound, P_pos.
    - subst. destruct k as [|[|k]]; [reflexivity|reflexivity|lia]. }
  destruct (P <=? set_bytes (chunk 0 m)) eqn:C0.
  { intros p O H. apply Z.leb_le in C0. assert (X := NE p 0%nat H). lia. }
  destruct (P <=? set_bytes (chunk 1 m)) eqn:C1.
  { intros p O H. apply Z.leb_le in C1. assert (X := NE p 1%nat H). lia. }
  apply Z.leb_gt in C0, C1.
  assert (EN : encodes P m [set_bytes (chunk 0 m); set_bytes (chunk 1 m)]).
  { apply (encodes_cut P 2 m P_pos F L). intros [|[|k]] K; auto; lia. }
  assert (RX := chunk_nonneg 0 m F). assert (RY := chunk_nonneg 1 m F).
  set (x := set_bytes (chunk 0 m)) in *. set (y := set_bytes (chunk 1 m)) in *. clearbody x y.
  destruct ((x =? 0) && (y =? 0)) eqn:Z.
  { apply andb_true_iff in Z. destruct Z as [Z1 Z2]. apply Z.eqb_eq in Z1, Z2. subst x y. exists None. split; [exact I|]. split; [|apply c_inf].
    cbn [enc1]. apply (encodes_iff P _ _ _ _ P_pos EN (zeros_enc 2) eq_refl). repeat constructor; reflexivity. }
  assert (ON : c_on_curve (CP x y 1) = true <-> E1 (Some (x, y))).
  { unfold c_on_curve. rewrite Z.eqb_eq, zmin_0. unfold curveB. cbn [cx cy].
    change (E1 (Some (x, y))) with (y * y ==[P] x * x * x + 3). split; intros H.
    - transitivity (y * y - x * x * x - 3 + (x * x * x + 3)); [apply cong_eq; ring|]. rewrite H. apply cong_eq; ring.
    - rewrite H. apply cong_eq; ring. }
  destruct (c_on_curve (CP x y 1)).
  - exists (Some (x, y)). assert (O := proj1 ON eq_refl). split; [exact O|]. split; [exact EN|]. split; [|split; [|exact O]].
    + cbn [cx cy cz]. split; [exact (cong_1_0 P prime_P)|]. split; apply cong_eq; [change (x = x * 1)|change (y = y * 1)]; now rewrite Z.mul_1_r.
    + split; [cbn; lia|]. intros E. exfalso. exact (cong_1_0 P prime_P E).
  - intros [[x' y']|] O H.
    + assert (X : Forall2 (fun a b => a ==[P] b) [x; y] [x'; y']) by (apply (encodes_iff P _ _ _ _ P_pos EN H eq_refl); reflexivity).
      inversion X as [|? ? ? ? A F']; subst. inversion F' as [|? ? ? ? B _]; subst. enough (false = true) by discriminate. apply ON.
      change (y * y ==[P] x * x * x + 3). change (y' * y' ==[P] x' * x' * x' + 3) in O. rewrite A, B. exact O.
    + cbn [enc1] in H. subst m. apply enc1_zero in EN. destruct EN as [A B].
      apply (cong_canon_unique P _ 0) in A, B; [|lia..]. subst. discriminate.
Qed.

(** ** G2: 128 zero bytes for infinity, else the two coordinates of x and of y. *)
Definition in_G2 (p : apoint FP2) : Prop := E2 p /\ multiple p (Z.to_nat Order) None.
Definition enc2 (m : list Z) (p : apoint FP2) : Prop :=
  match p with None => m = repeat 0 128 | Some (x, y) => encodes P m [fst x; snd x; fst y; snd y] end.
Lemma enc2_zero a b c d : encodes P (repeat 0 128) [a; b; c; d] -> a ==[P] 0 /\ b ==[P] 0 /\ c ==[P] 0 /\ d ==[P] 0.
Proof.
  intros H. assert (F := proj1 (encodes_iff P _ _ _ _ P_pos H (zeros_enc 4) eq_refl) eq_refl).
  inversion F as [|? ? ? ? A F1]; subst. inversion F1 as [|? ? ? ? B F2]; subst. inversion F2 as [|? ? ? ? C F3]; subst. inversion F3; subst. auto.
Qed.
Section Sing.
Variable R : cring.
Add Ring Rr : (c_ring R) (setoid (c_equiv R) (c_ext R)).
Lemma sing (x y b : R) : x =! c0 -> y =! c0 -> y *! y =! x *! x *! x +! b -> b =! c0.
Proof. intros X Y H. rewrite X, Y in H. transitivity (c0 *! c0 *! c0 +! b : R); [ring|]. rewrite <- H. ring. Qed.
Lemma mult_none n : multiple (None : apoint R) n None.
Proof. induction n; [constructor|]. econstructor; [eassumption|]. exact I. Qed.
Lemma on_diff (x y b : R) : (y *! y -! x *! x *! x) -! b =! c0 <-> y *! y =! x *! x *! x +! b.
Proof.
  split; intros H.
  - transitivity ((y *! y -! x *! x *! x) -! b +! (x *! x *! x +! b)); [ring|]. rewrite H. ring.
  - rewrite H. ring.
Qed.
End Sing.
Lemma E2_nz (x y : FP2) : E2 (Some (x, y)) -> ~ (x =[FP2]= c0 /\ y =[FP2]= c0).
Proof.
  intros O [X Y]. exact (FP2_b (sing FP2 x y twistB X Y O)).
Qed.
Lemma enc2_unique m p r : E2 p -> E2 r -> enc2 m p -> enc2 m r -> apoint_eq p r.
Proof.
  intros O1 O2. destruct p as [[x y]|], r as [[x' y']|]; cbn [enc2]; intros H H'; [| | |exact I].
  - assert (F := proj1 (encodes_iff P _ _ _ _ P_pos H H' eq_refl) eq_refl).
    inversion F as [|? ? ? ? A F1]; subst. inversion F1 as [|? ? ? ? B F2]; subst. inversion F2 as [|? ? ? ? C F3]; subst. inversion F3; subst. repeat split; auto.
  - subst. apply enc2_zero in H. destruct H as (A & B & C & D). exact (E2_nz x y O1 (conj (conj A B) (conj C D))).
  - subst. apply enc2_zero in H'. destruct H' as (A & B & C & D). exact (E2_nz x' y' O2 (conj (conj A B) (conj C D))).
Qed.
Lemma enc2_fun m m' p r : enc2 m p -> enc2 m' r -> apoint_eq p r -> m = m'.
Proof.
  destruct p as [[x y]|], r as [[x' y']|]; cbn [enc2 apoint_eq]; intros H H' E; try contradiction; [|congruence].
  apply (encodes_iff P _ _ _ _ P_pos H H' eq_refl). destruct E as [[A B] [C D]]. repeat constructor; auto.
Qed.
Lemma g2_marshal_ok e p : t_is e p -> enc2 (g2_marshal e) p.
Proof.
  intros H. assert (I := t_inf_none e p H). destruct (t_make_affine_ok 0 e p H) as (_ & _ & A). unfold g2_marshal.
  destruct (t_is_infinity e) eqn:E.
  - rewrite (proj1 I eq_refl). reflexivity.
  - destruct p as [[x y]|]; [|discriminate (proj2 I eq_refl)]. destruct (A x y eq_refl) as (_ & [X1 X2] & [Y1 Y2]). cbv zeta. cbn [enc2].
    set (a := t_make_affine 0 e) in *.
    assert (X1' : fst (tx a) mod P = fst x mod P) by (apply cong_mod_iff; [discriminate|exact X1]).
    assert (X2' : snd (tx a) mod P = snd x mod P) by (apply cong_mod_iff; [discriminate|exact X2]).
    assert (Y1' : fst (ty a) mod P = fst y mod P) by (apply cong_mod_iff; [discriminate|exact Y1]).
    assert (Y2' : snd (ty a) mod P = snd y mod P) by (apply cong_mod_iff; [discriminate|exact Y2]).
    rewrite X1', X2', Y1', Y2'. apply encodes_app; [|exact P_enc]. apply encodes_app; [|exact P_enc]. apply encodes_app; [|exact P_enc].
    rewrite <- (app_nil_r (bytes32 _)). apply encodes_app; [reflexivity|exact P_enc].
Qed.
Lemma in_G2_eq p r : in_G2 p -> apoint_eq p r -> in_G2 r.
Proof.
  intros [O M] E. split; [exact (on_eq FP2 twistB p r E O)|exact (mult_arg FP2 p r _ None E M)].
Qed.
Lemma Order_nonneg : 0 <= Order. Proof. discriminate. Qed.
Lemma t_mul_zero st rt c p k : 0 <= k -> t_is c p -> g2_is_zero (tz (t_mul st rt c k)) = true <-> multiple p (Z.to_nat k) None.
Proof.
  intros K T. destruct (t_mul_ok st rt _ _ k K T) as (s & M & S).
  assert (IN := t_inf_none _ _ S). unfold t_is_infinity in IN. rewrite IN. split.
  - intros ->. exact M.
  - intros M'. assert (E := mult_unique FP2 FP2_field p _ _ _ M M'). destruct s as [[sx sy]|]; [destruct E|reflexivity].
Qed.
Lemma t_on_curve_ok st rt x y : t_on_curve st rt (TP x y g2_one g2_one) = true <-> in_G2 (Some (x, y)).
Proof.
  unfold t_on_curve. cbn [tx ty]. cbv zeta. set (d := g2_sub (g2_sub (g2_square y) (g2_mul (g2_square x) x)) twistB).
  assert (D : (fst (g2_minimal d) =? 0) && (snd (g2_minimal d) =? 0) = true <-> E2 (Some (x, y))).
  { rewrite andb_true_iff, !Z.eqb_eq. unfold g2_minimal. cbn [fst snd]. rewrite !zmin_0.
    change (d =[FP2]= c0 <-> (y : FP2) *! y =! (x : FP2) *! x *! x +! (twistB : FP2)). rewrite <- (on_diff FP2 x y twistB).
    assert (X : d =[FP2]= ((y : FP2) *! y -! (x : FP2) *! x *! x) -! (twistB : FP2)).
    { unfold d. rewrite (g2_sub_ok _ _), (g2_sub_ok _ _), (g2_mul_ok _ _), (g2_square_ok _), (g2_square_ok _). reflexivity. }
    now rewrite X. }
  rewrite <- negb_andb. destruct ((fst (g2_minimal d) =? 0) && (snd (g2_minimal d) =? 0)); cbn [negb].
  2:{ split; [discriminate|]. intros [O _]. apply D in O. discriminate. }
  assert (O := proj1 D eq_refl).
  assert (T : t_is (TP x y g2_one g2_one) (Some (x, y))).
  { split; [|split; [|exact O]].
    - split; [exact (proj1 FP2_field)|]. split; [apply (aff_1x FP2)|apply (aff_1y FP2)].
    - split; [cbn; lia|]. intros E. exfalso. exact (proj1 FP2_field E). }
  rewrite (t_mul_zero st rt _ _ Order Order_nonneg T). unfold in_G2. tauto.
Qed.
Lemma g2_unmarshal_ok st rt m : Forall is_byte m ->
  match g2_unmarshal st rt m with
  | Some e => exists p, in_G2 p /\ enc2 m p /\ t_is e p
  | None => forall p, in_G2 p -> ~ enc2 m p
  end.
Proof.
  intros F. unfold g2_unmarshal. destruct (Nat.eqb (length m) 128) eqn:L; cbn [negb].
  2:{ apply Nat.eqb_neq in L. intros [[x y]|] O H; apply L; [now rewrite (encodes_length _ _ _ H)|rewrite H; reflexivity]. }
  apply Nat.eqb_eq in L. cbv zeta.
  assert (NE : forall p k, enc2 m p -> (k < 4)%nat -> set_bytes (chunk k m) < P).
  { intros p k H K. destruct p as [[x y]|]; cbn [enc2] in H.
    - destruct (encodes_S _ _ _ _ H) as (m1 & H1 & C1). destruct (encodes_S _ _ _ _ H1) as (m2 & H2 & C2). destruct (encodes_S _ _ _ _ H2) as (m3 & H3 & C3).
      destruct k as [|[|[|[|k]]]]; [|rewrite C1|rewrite C1, C2|rewrite C1, C2, C3|lia]; erewrite encodes_0 by eassumption; apply Z.mod_pos_bound, P_pos.
    - subst. destruct k as [|[|[|[|k]]]]; [reflexivity..|lia]. }
  destruct (P <=? set_bytes (chunk 0 m)) eqn:C0.
  { intros p O H. apply Z.leb_le in C0. assert (X := NE p 0%nat H). lia. }
  destruct (P <=? set_bytes (chunk 1 m)) eqn:C1.
  { intros p O H. apply Z.leb_le in C1. assert (X := NE p 1%nat H). lia. }
  destruct (P <=? set_bytes (chunk 2 m)) eqn:C2.
  { intros p O H. apply Z.leb_le in C2. assert (X := NE p 2%nat H). lia. }
  destruct (P <=? set_bytes (chunk 3 m)) eqn:C3.
  { intros p O H. apply Z.leb_le in C3. assert (X := NE p 3%nat H). lia. }
  apply Z.leb_gt in C0, C1, C2, C3. clear NE.
  assert (EN : encodes P m [set_bytes (chunk 0 m); set_bytes (chunk 1 m); set_bytes (chunk 2 m); set_bytes (chunk 3 m)]).
  { apply (encodes_cut P 4 m P_pos F L). intros [|[|[|[|k]]]] K; auto; lia. }
  assert (R0 := chunk_nonneg 0 m F). assert (R1 := chunk_nonneg 1 m F). assert (R2 := chunk_nonneg 2 m F). assert (R3 := chunk_nonneg 3 m F).
  set (a := set_bytes (chunk 0 m)) in *. set (b := set_bytes (chunk 1 m)) in *. set (c := set_bytes (chunk 2 m)) in *. set (d := set_bytes (chunk 3 m)) in *. clearbody a b c d.
  destruct ((a =? 0) && (b =? 0) && (c =? 0) && (d =? 0)) eqn:Z.
  { rewrite !andb_true_iff in Z. destruct Z as [[[Z1 Z2] Z3] Z4]. apply Z.eqb_eq in Z1, Z2, Z3, Z4. subst a b c d. exists None.
    split; [split; [exact I|]|split; [|apply t_inf]].
    - exact (mult_none FP2 _).
    - cbn [enc2]. apply (encodes_iff P _ _ _ _ P_pos EN (zeros_enc 4) eq_refl). repeat constructor; reflexivity. }
  assert (ON := t_on_curve_ok st rt (a, b) (c, d)).
  destruct (t_on_curve st rt (TP (a, b) (c, d) g2_one g2_one)).
  - exists (Some ((a, b), (c, d))). assert (O := proj1 ON eq_refl). split; [exact O|]. split; [exact EN|]. split; [|split; [|exact (proj1 O)]].
    + split; [exact (proj1 FP2_field)|]. split; [apply (aff_1x FP2)|apply (aff_1y FP2)].
    + split; [cbn; lia|]. intros E. exfalso. exact (proj1 FP2_field E).
  - intros [[x y]|] O H.
    + assert (X : apoint_eq (R := FP2) (Some (x, y)) (Some ((a, b), (c, d)))).
      { cbn [enc2] in H. assert (X : Forall2 (fun a b => a ==[P] b) [fst x; snd x; fst y; snd y] [a; b; c; d]) by (apply (encodes_iff P _ _ _ _ P_pos H EN eq_refl); reflexivity).
        inversion X as [|? ? ? ? A F1]; subst. inversion F1 as [|? ? ? ? B F2]; subst. inversion F2 as [|? ? ? ? C F3]; subst. inversion F3; subst.
        split; split; assumption. }
      enough (false = true) by discriminate. apply ON. exact (in_G2_eq _ _ O X).
    + cbn [enc2] in H. subst m. apply enc2_zero in EN. destruct EN as (A & B & C & D).
      apply (cong_canon_unique P _ 0) in A, B, C, D; [|lia..]. subst. discriminate.
Qed.

(** ** GT *)
Lemma flat_enc xs : encodes P (flat_map bytes32 (map zmin xs)) xs.
Proof.
  induction xs as [|x xs IH]; [reflexivity|]. cbn [map flat_map]. exists (bytes32 (zmin x)), (flat_map bytes32 (map zmin xs)).
  split; [reflexivity|]. split; [apply bytes32_length|]. split; [apply bytes32_byte|]. split; [|exact IH].
  rewrite bytes32_value by apply zmin_range. symmetry. rewrite <- (Z.mod_small (zmin x) P) by apply zmin_range.
  apply cong_mod_iff; [discriminate|]. symmetry. apply zmin_ok.
Qed.
Lemma gt_marshal_enc a : encodes P (gt_marshal a) (flatten12 a).
Proof. apply (flat_enc (flatten12 a)). Qed.
Lemma flatten_eq a b : Forall2 (fun x y => x ==[P] y) (flatten12 a) (flatten12 b) <-> a =[FP12]= b.
Proof.
  destruct a as [[[[a1 a2] [a3 a4]] [a5 a6]] [[[a7 a8] [a9 a10]] [a11 a12]]], b as [[[[b1 b2] [b3 b4]] [b5 b6]] [[[b7 b8] [b9 b10]] [b11 b12]]].
  cbn [flatten12 flat_map app g6x g6y g6z fst snd]. split; intros H.
  - repeat match goal with H : Forall2 _ (_ :: _) _ |- _ => inversion H; subst; clear H end. repeat split; assumption.
  - destruct H as [[[H1 H2] [[H3 H4] [H5 H6]]] [[H7 H8] [[H9 H10] [H11 H12]]]]. repeat constructor; assumption.
Qed.
