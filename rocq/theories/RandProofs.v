(** The constraint system with the randomization row, compared with the system without it. *)
Require Import ZArith Znumtheory NArith Lia Bool Ascii String List.
Require Import Verif.Cong Verif.FqModel Verif.FqSpec Verif.FqProofs Verif.PolyModel Verif.AvlModel Verif.SparseModel Verif.FactorModel.
Require Import Verif.R1csModel Verif.R1csSpec Verif.R1csProofs Verif.EndProofs Verif.WitnessModel Verif.WitnessSpec Verif.WitnessProofs.
Import ListNotations.
Open Scope Z_scope.

(** ** Rows *)
Definition wide (v : list Z) : list Z := v ++ [0; 0].
Definition wide_row (r : row (list Z)) : row (list Z) := Row (wide (rl r)) (wide (rr r)) (wide (re r)) (wide (ro r)).
Definition last_row (n : nat) : row (list Z) := Row (zeros n ++ [1; 0]) (zeros n ++ [1; 0]) (zeros n ++ [1; 0]) (zeros n ++ [0; 1]).
Definition with_names (m : imap) : imap := m ++ [(rand_in, List.length m); (rand_out, S (List.length m))].

Lemma array_set_app arr t : forall i v a, array_set arr i v = Some a -> array_set (arr ++ t) i v = Some (a ++ t).
Proof.
  induction arr as [|y arr IH]; intros i v a; [discriminate|]. destruct i as [|i]; cbn.
  - now intros [= <-].
  - destruct (array_set arr i v) as [b|] eqn:E; [|discriminate]. intros [= <-]. now rewrite (IH _ _ _ E).
Qed.
Lemma array_set_past arr t : forall i v, array_set (arr ++ t) (List.length arr + i) v = option_map (app arr) (array_set t i v).
Proof.
  induction arr as [|y arr IH]; intros i v; cbn; [now destruct (array_set t i v)|]. rewrite IH. now destruct (array_set t i v).
Qed.
Lemma zeros_wide n : zeros (S (S n)) = wide (zeros n).
Proof. unfold wide, zeros. replace (S (S n)) with (n + 2)%nat by lia. now rewrite repeat_app. Qed.
Lemma im_get_app m t x : im_get (m ++ t) x = match im_get m x with Some i => Some i | None => im_get t x end.
Proof. induction m as [|[y i] m IH]; cbn; auto. now destruct (String.eqb y x). Qed.

Section M.
Variables (m : imap) (names : list string).
Hypothesis Hm : numbered names m.
Hypothesis R1 : ~ In rand_in names.
Hypothesis R2 : ~ In rand_out names.
Notation n := (List.length m).
Notation m2 := (with_names m).
Lemma get_old x i : im_get m x = Some i -> im_get m2 x = Some i.
Proof using Type. intros H. unfold with_names. now rewrite im_get_app, H. Qed.
Lemma get_in : im_get m2 rand_in = Some n.
Proof using Hm R1. unfold with_names. rewrite im_get_app. apply (numbered_none _ _ _ Hm) in R1. now rewrite R1. Qed.
Lemma get_out : im_get m2 rand_out = Some (S n).
Proof using Hm R2. unfold with_names. rewrite im_get_app. apply (numbered_none _ _ _ Hm) in R2. now rewrite R2. Qed.
Lemma idx_old x : In x names -> im_idx m2 x = im_idx m x.
Proof using Hm.
  intros H. unfold im_idx. apply In_nth_error in H. destruct H as [i H]. apply (numbered_get _ _ _ _ Hm) in H. now rewrite (get_old _ _ H), H.
Qed.
Lemma idx_other x : x <> rand_in -> x <> rand_out -> im_idx m2 x = im_idx m x.
Proof using Type.
  intros H1 H2. unfold im_idx, with_names. rewrite im_get_app. destruct (im_get m x); auto. cbn [im_get].
  destruct (String.eqb_spec rand_in x); [congruence|]. destruct (String.eqb_spec rand_out x); [congruence|]. reflexivity.
Qed.
Lemma set_names : im_set (im_set m rand_in n) rand_out (List.length (im_set m rand_in n)) = m2.
Proof using Hm R1 R2.
  rewrite (im_set_absent m rand_in) by now apply (numbered_none _ _ _ Hm). rewrite im_set_absent.
  - unfold with_names. now rewrite app_length, <- app_assoc, Nat.add_1_r.
  - rewrite im_get_app. apply (numbered_none _ _ _ Hm) in R2. now rewrite R2.
Qed.
Lemma names_length : List.length m2 = S (S n).
Proof using Type. unfold with_names. rewrite app_length. cbn. lia. Qed.
Lemma insert_values_wide fs : forall arr v, insert_values m arr fs = Some v -> insert_values m2 (wide arr) fs = Some (wide v).
Proof using Type.
  induction fs as [|f fs IH]; intros arr v; cbn [insert_values]; [now intros [= <-]|].
  destruct (insert_value m arr f) as [a|] eqn:E; [|discriminate]. intros H.
  assert (E' : insert_value m2 (wide arr) f = Some (wide a)); [|rewrite E'; now apply IH].
  unfold insert_value in *. destruct (is_number f); [now apply array_set_app|].
  destruct (im_get m (ident (ftok f))) as [i|] eqn:G; [|discriminate]. rewrite (get_old _ _ G). now apply array_set_app.
Qed.
Lemma vec_wide fs v : vec m n fs = Some v -> vec m2 (S (S n)) fs = Some (wide v).
Proof using Type. unfold vec. rewrite zeros_wide. apply insert_values_wide. Qed.
Lemma unit_wide i v : unit_at n i = Some v -> unit_at (S (S n)) i = Some (wide v).
Proof using Type. unfold unit_at. rewrite zeros_wide. apply array_set_app. Qed.
Lemma mk_row_wide a b c d a' b' c' d' r : mk_row a b c d = Some r -> (forall v, a = Some v -> a' = Some (wide v)) -> (forall v, b = Some v -> b' = Some (wide v)) ->
  (forall v, c = Some v -> c' = Some (wide v)) -> (forall v, d = Some v -> d' = Some (wide v)) -> mk_row a' b' c' d' = Some (wide_row r).
Proof using Type.
  unfold mk_row. destruct a as [a|], b as [b|], c as [c|], d as [d|]; try discriminate. intros [= <-] A B C D.
  now rewrite (A _ eq_refl), (B _ eq_refl), (C _ eq_refl), (D _ eq_refl).
Qed.
Definition own_names (g : gate) : Prop :=
  match gtyp g with GBase | GBit => In (gid g) names | GSum => In (ident (grep g)) names | _ => True end.
Lemma gate_row_wide g r : own_names g -> gate_row m n g = Some r -> gate_row m2 (S (S n)) g = Some (wide_row r).
Proof using Hm.
  unfold gate_row, own_names. destruct (swap_sides g) as [l r']. intros O H.
  assert (Z0 : forall v, Some (zeros n) = Some v -> Some (zeros (S (S n))) = Some (wide v)) by (intros v [= <-]; now rewrite zeros_wide).
  destruct (gtyp g); try discriminate H; (eapply mk_row_wide; [exact H|..]); try exact Z0; try (intros v; apply vec_wide); try (intros v; apply unit_wide);
    try (rewrite (idx_old _ O); intros v; apply unit_wide).
  rewrite (idx_old _ O). intros v. rewrite zeros_wide. destruct (array_set (zeros n) 0 (-1)) as [a|] eqn:E; [|discriminate].
  unfold wide at 1. rewrite (array_set_app _ _ _ _ _ E). apply array_set_app.
Qed.
Lemma all_rows_wide gs : Forall own_names gs -> forall rs, all_some (gate_row m n) gs = Some rs -> all_some (gate_row m2 (S (S n))) gs = Some (map wide_row rs).
Proof using Hm.
  induction 1 as [|g gs O _ IH]; intros rs; cbn [all_some]; [now intros [= <-]|].
  destruct (gate_row m n g) as [r|] eqn:E; [|discriminate]. destruct (all_some (gate_row m n) gs) as [rs'|] eqn:E'; [|discriminate].
  intros [= <-]. rewrite (gate_row_wide _ _ O E), (IH _ eq_refl). reflexivity.
Qed.
Lemma last_row_eq : rand_row m2 (S (S n)) = Some (last_row n).
Proof using Hm R1 R2.
  assert (A : forall x i, im_get m2 x = Some (n + i)%nat -> vec m2 (S (S n)) (wire x 1) = option_map (app (zeros n)) (array_set [0; 0] i 1)).
  { intros x i G. unfold vec. rewrite zeros_wide. unfold wide. change (insert_values m2 (zeros n ++ [0; 0]) (wire x 1)) with (match (match im_get m2 x with None => None | Some i => array_set (zeros n ++ [0; 0]) i 1 end) with Some a => Some a | None => None end). rewrite G.
    assert (L := array_set_past (zeros n) [0; 0] i 1). unfold zeros in L at 2. rewrite repeat_length in L. rewrite L. now destruct (array_set [0; 0] i 1). }
  unfold rand_row. rewrite (A rand_in 0%nat), (A rand_out 1%nat); [reflexivity| |].
  - rewrite get_out. f_equal. lia.
  - rewrite get_in. f_equal. lia.
Qed.
(** Sparse rows do not change. *)
Lemma sinsert_values_same q fs : (forall f, In f fs -> is_number f = true -> ident (ftok f) <> rand_in /\ ident (ftok f) <> rand_out) ->
  forall t v, sinsert_values q m t fs = Some v -> sinsert_values q m2 t fs = Some v.
Proof using Type.
  induction fs as [|f fs IH]; intros N t v; cbn [sinsert_values]; auto.
  destruct (sinsert_value q m t f) as [a|] eqn:E; [|discriminate]. intros H.
  assert (E' : sinsert_value q m2 t f = Some a); [|rewrite E'; apply IH; auto; intros; apply N; auto; now right].
  unfold sinsert_value in *. destruct (is_number f) eqn:Nf.
  - destruct (N f (or_introl eq_refl) Nf). now rewrite idx_other.
  - destruct (im_get m (ident (ftok f))) as [i|] eqn:G; [|discriminate]. now rewrite (get_old _ _ G).
Qed.
Lemma mk_srow_same a b c d a' b' c' d' r : mk_srow a b c d = Some r -> (forall v, a = Some v -> a' = Some v) -> (forall v, b = Some v -> b' = Some v) ->
  (forall v, c = Some v -> c' = Some v) -> (forall v, d = Some v -> d' = Some v) -> mk_srow a' b' c' d' = Some r.
Proof using Type.
  unfold mk_srow. destruct a as [a|], b as [b|], c as [c|], d as [d|]; try discriminate. intros [= <-] A B C D.
  now rewrite (A _ eq_refl), (B _ eq_refl), (C _ eq_refl), (D _ eq_refl).
Qed.
Definition numbers_differ (g : gate) : Prop := forall f, In f (gleft g ++ gright g ++ gexp g ++ gout g) -> is_number f = true ->
  ident (ftok f) <> rand_in /\ ident (ftok f) <> rand_out.
Lemma sgate_row_same q g r : own_names g -> numbers_differ g -> sgate_row q m g = Some r -> sgate_row q m2 g = Some r.
Proof using Hm.
  unfold sgate_row, own_names. intros O D H.
  assert (S : forall fs, incl fs (gleft g ++ gright g ++ gexp g ++ gout g) -> forall v, svec q m fs = Some v -> svec q m2 fs = Some v).
  { intros fs I v. apply sinsert_values_same. intros f If. apply D. now apply I. }
  assert (S1 : forall v, svec q m (gleft g) = Some v -> svec q m2 (gleft g) = Some v) by (apply S; intros x; rewrite !in_app_iff; tauto).
  assert (S2 : forall v, svec q m (gright g) = Some v -> svec q m2 (gright g) = Some v) by (apply S; intros x; rewrite !in_app_iff; tauto).
  assert (S3 : forall v, svec q m (gexp g) = Some v -> svec q m2 (gexp g) = Some v) by (apply S; intros x; rewrite !in_app_iff; tauto).
  assert (S4 : forall v, svec q m (gout g) = Some v -> svec q m2 (gout g) = Some v) by (apply S; intros x; rewrite !in_app_iff; tauto).
  unfold swap_sides in *. destruct (Nat.ltb _ _);
  destruct (gtyp g); try discriminate H; try rewrite (idx_old _ O); (eapply mk_srow_same; [exact H|..]); auto.
Qed.
Lemma all_srows_same q gs : Forall own_names gs -> Forall numbers_differ gs -> forall rs, all_some (sgate_row q m) gs = Some rs -> all_some (sgate_row q m2) gs = Some rs.
Proof using Hm.
  induction 1 as [|g gs O _ IH]; intros D rs; cbn [all_some]; [now intros [= <-]|]. inversion D as [|? ? D1 D2]; subst.
  destruct (sgate_row q m g) as [r|] eqn:E; [|discriminate]. destruct (all_some (sgate_row q m) gs) as [rs'|] eqn:E'; [|discriminate].
  intros [= <-]. now rewrite (sgate_row_same _ _ _ O D1 E), (IH D2 _ eq_refl).
Qed.
Lemma put_one q k : 1 < q -> tree_put Leaf k 1 (add_cb q) = Some (Node Leaf k 1 1 Leaf).
Proof using Type.
  intros Q. unfold tree_put. cbn [node_put]. unfold add_cb. assert (F : fadd q 0 1 = 1) by (unfold fadd; apply Z.mod_small; lia). rewrite F. cbn [get]. rewrite N.eqb_refl. reflexivity.
Qed.
Lemma svec_one q x i : 1 < q -> im_get m2 x = Some i -> svec q m2 (wire x 1) = Some (Node Leaf (N.of_nat i) 1 1 Leaf).
Proof using Type.
  intros Q G. unfold svec. change (sinsert_values q m2 Leaf (wire x 1)) with
    (match (match im_get m2 x with None => None | Some i => tree_put Leaf (N.of_nat i) 1 (add_cb q) end) with Some t => Some t | None => None end).
  now rewrite G, put_one.
Qed.
Definition leaf_at (i : nat) : tree := Node Leaf (N.of_nat i) 1 1 Leaf.
Definition last_srow (n : nat) : row tree := Row (leaf_at n) (leaf_at n) (leaf_at n) (leaf_at (S n)).
Lemma last_srow_eq q : 1 < q -> srand_row q m2 = Some (last_srow n).
Proof using Hm R1 R2. intros Q. unfold srand_row. rewrite (svec_one q rand_in n Q get_in), (svec_one q rand_out (S n) Q get_out). reflexivity. Qed.
End M.

(** ** The solver *)
Definition sim {A B} (f : A -> B) (a : solved A) (b : solved B) : Prop :=
  match a with Ok x => b = Ok (f x) | Err => b = Err | Panics => True end.
Lemma sim_bind {A A' B B'} (f : A -> A') (g : B -> B') a a' k k' : sim f a a' -> (forall x, a = Ok x -> sim g (k x) (k' (f x))) -> sim g (bind a k) (bind a' k').
Proof. destruct a as [x| |]; cbn; [intros -> H; now apply H|intros -> _; reflexivity|auto]. Qed.
Lemma sim_lift {A B} (f : A -> B) o o' : (forall x, o = Some x -> o' = Some (f x)) -> sim f (lift o) (lift o').
Proof. destruct o as [x|]; cbn; auto. intros H. now rewrite (H x eq_refl). Qed.
Lemma sim_same {A} (a : solved A) : sim (fun x => x) a a.
Proof. destruct a; cbn; auto. Qed.

Section S.
Variable q : Z.
Hypothesis Q : 1 < q.
Variable gx : Z -> Z.
Variable bm : bitmap.
Variable t : Z.
Definition grow (s : state) : state := St (wit s ++ [t; 0]) (isset s ++ [true; false]).
Definition grow3 {A} (f : A -> A) (x : A * list nat * state) : A * list nat * state := (f (fst (fst x)), snd (fst x), grow (snd x)).
Lemma bset_app b u : forall i b', bset b i = Some b' -> bset (b ++ u) i = Some (b' ++ u).
Proof using Type.
  induction b as [|y b IH]; intros i b'; [discriminate|]. destruct i as [|i]; cbn; [now intros [= <-]|].
  destruct (bset b i) as [c|] eqn:E; [|discriminate]. intros [= <-]. now rewrite (IH _ _ E).
Qed.
Lemma assign_grow s i v s' : assign s i v = Some s' -> assign (grow s) i v = Some (grow s').
Proof using Type.
  unfold assign. destruct (array_set (wit s) i v) as [w|] eqn:E1; [|discriminate]. destruct (bset (isset s) i) as [b|] eqn:E2; [|discriminate].
  intros [= <-]. cbn. now rewrite (array_set_app _ _ _ _ _ E1), (bset_app _ _ _ _ E2).
Qed.
Lemma nth_grow {A} (l u : list A) i x : nth_error l i = Some x -> nth_error (l ++ u) i = Some x.
Proof using Type. intros H. rewrite nth_error_app1; auto. apply nth_error_Some. congruence. Qed.
Lemma scan_grow arr : forall j s x, scan bm j arr s = Some x -> scan bm j (wide arr) (grow s) = Some (grow3 wide x).
Proof using Type.
  induction arr as [|v arr IH]; intros j s x; cbn [scan wide app].
  - now intros [= <-].
  - fold (wide arr). destruct (v =? 0).
    { destruct (scan bm (S j) arr s) as [[[k u] s']|] eqn:E; [|discriminate]. intros [= <-]. now rewrite (IH _ _ _ E). }
    destruct (nth_error (isset s) j) as [b|] eqn:Eb; [|discriminate]. cbn [isset grow]. rewrite (nth_grow _ _ _ _ Eb). destruct b.
    { destruct (scan bm (S j) arr s) as [[[k u] s']|] eqn:E; [|discriminate]. intros [= <-]. now rewrite (IH _ _ _ E). }
    destruct (bm_get bm j) as [[pos father]|].
    + destruct (nth_error (wit s) father) as [f|] eqn:Ef; [|discriminate]. cbn [wit grow]. rewrite (nth_grow _ _ _ _ Ef).
      destruct (assign s j (bit_of f pos)) as [s1|] eqn:Ea; [|discriminate]. rewrite (assign_grow _ _ _ _ Ea).
      destruct (scan bm (S j) arr s1) as [[[k u] s']|] eqn:E; [|discriminate]. intros [= <-]. now rewrite (IH _ _ _ E).
    + destruct (scan bm (S j) arr s) as [[[k u] s']|] eqn:E; [|discriminate]. intros [= <-]. now rewrite (IH _ _ _ E).
Qed.
Lemma product_wide k w a b x : fscalar_product q k w = Some x -> fscalar_product q (wide k) (w ++ [a; b]) = Some x.
Proof using Q.
  intros H. assert (L : List.length k = List.length w).
  { destruct (Nat.eq_dec (List.length k) (List.length w)) as [|N]; auto. rewrite (proj2 (fscalar_product_spec q k w Q) N) in H. discriminate. }
  destruct (proj1 (fscalar_product_spec q k w Q) L) as (x' & E & C). rewrite H in E. injection E as <-.
  destruct C as [C _]. unfold fscalar_product in *. unfold wide. rewrite !app_length, L, Nat.eqb_refl. rewrite L, Nat.eqb_refl in H. injection H as H.
  assert (CA : combine (k ++ [0; 0]) (w ++ [a; b]) = combine k w ++ [(0, a); (0, b)]).
  { clear -L. revert w L. induction k as [|y k IH]; intros [|z w] L; try discriminate L; [reflexivity|]. cbn. f_equal. apply IH. now injection L. }
  rewrite CA, fold_left_app, H. cbn. rewrite !Z.add_0_r, Z.mod_mod, Z.mod_small by lia. reflexivity.
Qed.
Lemma total_grow k s x : total q k s = Ok x -> total q (wide k) (grow s) = Ok x.
Proof using Q.
  unfold total. cbn [wit grow]. destruct (fscalar_product q k (wit s)) as [y|] eqn:E; [|discriminate]. intros H. now rewrite (product_wide _ _ _ _ _ E).
Qed.
Lemma sim_total k s : sim (fun x => x) (total q k s) (total q (wide k) (grow s)).
Proof using Q.
  destruct (total q k s) as [x| |] eqn:E; cbn; auto; [now apply total_grow|]. unfold total in E. now destruct (fscalar_product q k (wit s)).
Qed.
Lemma sim_nth r x : sim (fun a : Z => a) (lift (nth_error r x)) (lift (nth_error (wide r) x)).
Proof using Type. apply sim_lift. intros a. apply nth_grow. Qed.
Lemma sim_assign s x v : sim grow (lift (assign s x v)) (lift (assign (grow s) x v)).
Proof using Type. apply sim_lift. intros a. apply assign_grow. Qed.
Lemma sim_scan r s : sim (grow3 wide) (lift (scan bm 0 r s)) (lift (scan bm 0 (wide r) (grow s))).
Proof using Type. apply sim_lift. intros a. apply scan_grow. Qed.
Ltac sb L := eapply sim_bind; [apply L|intros ? _].
Ltac sc := eapply sim_bind; [apply sim_scan|intros [[? ?] ?] _; cbn [grow3 fst snd]].
Lemma solve_row_grow r s : sim grow (solve_row q gx bm r s) (solve_row q gx bm (wide_row r) (grow s)).
Proof using Q.
  unfold solve_row. cbn [rl rr re ro wide_row].
  eapply sim_bind; [apply sim_scan|intros [[lk lu] s1] _; cbn [grow3 fst snd]]. eapply sim_bind; [apply sim_scan|intros [[rk ru] s2] _; cbn [grow3 fst snd]].
  eapply sim_bind; [apply sim_scan|intros [[ek eu] s3] _; cbn [grow3 fst snd]].
  destruct eu as [|]; [|reflexivity]. eapply sim_bind; [apply sim_scan|intros [[ok ou] s4] _; cbn [grow3 fst snd]].
  destruct (Nat.ltb _ _); [reflexivity|].
  assert (X : sim grow
    (let* (lk, lu, s1) := lift (scan bm 0 (rl r) s4) in let* (rk, ru, s2) := lift (scan bm 0 (rr r) s1) in
     let* (ek, eu, s3) := lift (scan bm 0 (re r) s2) in let* (ok, ou, s4) := lift (scan bm 0 (ro r) s3) in
     match lu, ru, ou, eu with
     | [], [], [], [] => let* sr := total q rk s4 in let* sl := total q lk s4 in let* se := total q ek s4 in let* so := total q ok s4 in
                         if fadd q (fmul q sr sl) (gx se) =? so then Ok s4 else Err
     | _, _, _, _ => Err
     end)
    (let* (lk, lu, s1) := lift (scan bm 0 (wide (rl r)) (grow s4)) in let* (rk, ru, s2) := lift (scan bm 0 (wide (rr r)) s1) in
     let* (ek, eu, s3) := lift (scan bm 0 (wide (re r)) s2) in let* (ok, ou, s4) := lift (scan bm 0 (wide (ro r)) s3) in
     match lu, ru, ou, eu with
     | [], [], [], [] => let* sr := total q rk s4 in let* sl := total q lk s4 in let* se := total q ek s4 in let* so := total q ok s4 in
                         if fadd q (fmul q sr sl) (gx se) =? so then Ok s4 else Err
     | _, _, _, _ => Err
     end)).
  { sc. sc. sc. sc. destruct l0 as [|]; [|reflexivity]. destruct l2 as [|]; [|reflexivity]. destruct l6 as [|]; [|reflexivity]. destruct l4 as [|]; [|reflexivity].
    sb sim_total. sb sim_total. sb sim_total. sb sim_total. destruct (_ =? _); reflexivity. }
  destruct lu as [|x [|]].
  2:{ sb sim_total. destruct (_ =? 0); [reflexivity|]. sb sim_total. sb sim_total. sb (@sim_same Z). sb sim_total. sb sim_nth. sb (@sim_same Z). apply sim_assign. }
  all: destruct ru as [|x' [|]].
  all: try (sb sim_total; destruct (_ =? 0); [reflexivity|]; sb sim_total; sb sim_total; sb (@sim_same Z); sb sim_total; sb sim_nth; sb (@sim_same Z); apply sim_assign).
  all: destruct ou as [|x'' [|]].
  all: try (sb sim_total; sb sim_total; sb sim_total; sb sim_total; sb sim_nth; sb (@sim_same Z); apply sim_assign).
  all: exact X.
Qed.
Lemma solve_rows_grow rs : forall s, sim grow (solve_rows q gx bm rs s) (solve_rows q gx bm (map wide_row rs) (grow s)).
Proof using Q. induction rs as [|r rs IH]; intros s; cbn [solve_rows map]; [reflexivity|]. eapply sim_bind; [apply solve_row_grow|]. intros x _. apply IH. Qed.

(** Sparse *)
Definition grow3s (x : tree * list N * state) : tree * list N * state := (fst (fst x), snd (fst x), grow (snd x)).
Lemma sscan_grow es : forall k s x, sscan bm es k s = Some x -> sscan bm es k (grow s) = Some (grow3s x).
Proof using Type.
  induction es as [|[j v] es IH]; intros k s x; cbn [sscan]; [now intros [= <-]|].
  destruct (nth_error (isset s) (N.to_nat j)) as [b|] eqn:Eb; [|discriminate]. cbn [isset grow]. rewrite (nth_grow _ _ _ _ Eb). destruct b.
  { destruct (insert k j v) as [k'|]; [|discriminate]. apply IH. }
  destruct (bm_get bm (N.to_nat j)) as [[pos father]|].
  - destruct (nth_error (wit s) father) as [f|] eqn:Ef; [|discriminate]. cbn [wit grow]. rewrite (nth_grow _ _ _ _ Ef).
    destruct (assign s (N.to_nat j) (bit_of f pos)) as [s1|] eqn:Ea; [|discriminate]. rewrite (assign_grow _ _ _ _ Ea).
    destruct (insert k j (bit_of f pos)) as [k'|]; [|discriminate]. apply IH.
  - destruct (sscan bm es k s) as [[[t' u] s']|] eqn:E; [|discriminate]. intros [= <-]. now rewrite (IH _ _ _ E).
Qed.
Lemma sproduct_app k w u x : sparse_scalar_product q k w = Some x -> sparse_scalar_product q k (w ++ u) = Some x.
Proof using Type.
  unfold sparse_scalar_product. assert (N : forall es, fold_left (fun acc e => match acc, nth_error w (N.to_nat (fst e)) with
                          | Some res, Some w => Some (res + fmul q (snd e) w) | _, _ => None end) es None = None) by (induction es; cbn; auto).
  generalize 0. induction (ascending k) as [|[j v] es IH]; intros z; cbn [fold_left fst snd]; auto.
  destruct (nth_error w (N.to_nat j)) as [y|] eqn:E; [|now rewrite N]. rewrite (nth_grow _ _ _ _ E). apply IH.
Qed.
Lemma sim_stotal k s : sim (fun x => x) (stotal q k s) (stotal q k (grow s)).
Proof using Type. apply sim_lift. intros x. apply sproduct_app. Qed.
Lemma sim_sscan r s : sim grow3s (lift (sscan bm (ascending r) Leaf s)) (lift (sscan bm (ascending r) Leaf (grow s))).
Proof using Type. apply sim_lift. intros a. apply sscan_grow. Qed.
Ltac ss := eapply sim_bind; [apply sim_sscan|intros [[? ?] ?] _; cbn [grow3s fst snd]].
Lemma ssolve_row_grow r s : sim grow (ssolve_row q gx bm r s) (ssolve_row q gx bm r (grow s)).
Proof using Type.
  unfold ssolve_row.
  eapply sim_bind; [apply sim_sscan|intros [[lk lu] s1] _; cbn [grow3s fst snd]]. eapply sim_bind; [apply sim_sscan|intros [[rk ru] s2] _; cbn [grow3s fst snd]].
  eapply sim_bind; [apply sim_sscan|intros [[ek eu] s3] _; cbn [grow3s fst snd]].
  destruct eu as [|]; [|reflexivity]. eapply sim_bind; [apply sim_sscan|intros [[ok ou] s4] _; cbn [grow3s fst snd]].
  destruct (Nat.ltb _ _); [reflexivity|].
  eapply (sim_bind grow).
  { destruct lu as [|x [|]]; try reflexivity.
    sb sim_stotal. destruct (_ =? 0); [reflexivity|]. sb sim_stotal. sb sim_stotal. sb (@sim_same Z). sb sim_stotal. sb (@sim_same Z). sb (@sim_same Z). apply sim_assign. }
  intros s5 _. eapply (sim_bind grow).
  { destruct ru as [|x [|]]; try reflexivity.
    sb sim_stotal. destruct (_ =? 0); [reflexivity|]. sb sim_stotal. sb sim_stotal. sb (@sim_same Z). sb sim_stotal. sb (@sim_same Z). sb (@sim_same Z). apply sim_assign. }
  intros s6 _. eapply (sim_bind grow).
  { destruct ou as [|x [|]]; try reflexivity.
    sb sim_stotal. sb sim_stotal. sb sim_stotal. sb sim_stotal. sb (@sim_same Z). sb (@sim_same Z). apply sim_assign. }
  intros s7 _. ss. ss. ss. ss. destruct l as [|]; [|reflexivity]. destruct l0 as [|]; [|reflexivity]. destruct l2 as [|]; [|reflexivity]. destruct l1 as [|]; [|reflexivity].
  sb sim_stotal. sb sim_stotal. sb sim_stotal. sb sim_stotal. destruct (_ =? _); reflexivity.
Qed.
Lemma ssolve_rows_grow rs : forall s, sim grow (ssolve_rows q gx bm rs s) (ssolve_rows q gx bm rs (grow s)).
Proof using Type. induction rs as [|r rs IH]; intros s; cbn [ssolve_rows]; [reflexivity|]. eapply sim_bind; [apply ssolve_row_grow|]. intros x _. apply IH. Qed.
End S.

(** ** The last row *)
Section L.
Variable q : Z.
Hypothesis Pq : prime q.
Variable gx : Z -> Z.
Variable bm : bitmap.
Variable t : Z.
Variable s : state.
Variable n : nat.
Hypothesis L1 : List.length (wit s) = n.
Hypothesis L2 : List.length (isset s) = n.
Hypothesis NB : bm_get bm (S n) = None.
Notation g := (grow t s).
Lemma q1 : 1 < q.
Proof using Pq. now destruct Pq. Qed.
Lemma scan_zeros k : forall j v r k' u s', scan bm (k + j) v r = Some (k', u, s') -> scan bm j (zeros k ++ v) r = Some (zeros k ++ k', u, s').
Proof using Type.
  induction k as [|k IH]; intros j v r k' u s' H; [exact H|]. clear L1 L2. change (zeros (S k) ++ v) with (0 :: (zeros k ++ v)). cbn [scan Z.eqb].
  rewrite (IH (S j) v r k' u s'); [reflexivity|]. now replace (k + S j)%nat with (S k + j)%nat by lia.
Qed.
Lemma bit_in : nth_error (isset g) n = Some true.
Proof using Pq L1 L2 NB. cbn. now rewrite nth_error_app2, L2, Nat.sub_diag by lia. Qed.
Lemma bit_out : nth_error (isset g) (S n) = Some false.
Proof using Pq L1 L2 NB. cbn [isset grow]. rewrite nth_error_app2 by lia. now replace (S n - List.length (isset s))%nat with 1%nat by lia. Qed.
Lemma scan_in : scan bm 0 (zeros n ++ [1; 0]) g = Some (zeros n ++ [1; 0], [], g).
Proof using Pq L1 L2 NB. apply scan_zeros. rewrite Nat.add_0_r. cbn [scan Z.eqb]. now rewrite bit_in. Qed.
Lemma scan_out : scan bm 0 (zeros n ++ [0; 1]) g = Some (zeros n ++ [0; 0], [S n], g).
Proof using Pq L1 L2 NB. apply scan_zeros. rewrite Nat.add_0_r. cbn [scan Z.eqb]. now rewrite bit_out, NB. Qed.
Lemma product_at a b x y : exists r, fscalar_product q (zeros n ++ [a; b]) (wit s ++ [x; y]) = Some r /\ 0 <= r < q /\ r ==[q] a * x + b * y.
Proof using Pq L1 L2 NB.
  assert (Q := q1). destruct (proj1 (fscalar_product_spec q (zeros n ++ [a; b]) (wit s ++ [x; y]) Q)) as (r & E & C & D).
  { rewrite !app_length. unfold zeros. now rewrite repeat_length, L1. }
  exists r. split; auto. split; auto. rewrite dots_same in D by (rewrite !app_length; unfold zeros; now rewrite repeat_length, L1). rewrite D.
  apply cong_eq. clear -L1. revert n L1. induction (wit s) as [|z w IH]; intros n <-; cbn; [ring|]. now rewrite <- (IH _ eq_refl).
Qed.
Lemma total_at a b : exists r, total q (zeros n ++ [a; b]) g = Ok r /\ 0 <= r < q /\ r ==[q] a * t.
Proof using Pq L1 L2 NB.
  destruct (product_at a b t 0) as (r & E & C & D). exists r. unfold total. cbn [wit grow]. rewrite E. split; auto. split; auto. now rewrite D, Z.mul_0_r, Z.add_0_r.
Qed.
Lemma assign_out v : assign g (S n) v = Some (St (wit s ++ [t; v]) (isset s ++ [true; true])).
Proof using Pq L1 L2 NB.
  unfold assign. cbn [wit isset grow]. replace (S n) with (List.length (wit s) + 1)%nat at 1 by lia. rewrite array_set_past. cbn.
  assert (X : bset (isset s ++ [true; false]) (S n) = Some (isset s ++ [true; true])); [|now rewrite X].
  rewrite <- L2. clear. induction (isset s) as [|b l IH]; [reflexivity|]. change (bset ((b :: l) ++ [true; false]) (S (List.length (b :: l)))) with
    (match bset (l ++ [true; false]) (S (List.length l)) with Some r => Some (b :: r) | None => None end). now rewrite IH.
Qed.
Lemma solve_last : exists v, 0 <= v < q /\ t * t + gx (t mod q) ==[q] v /\
  solve_row q gx bm (last_row n) g = Ok (St (wit s ++ [t; v]) (isset s ++ [true; true])).
Proof using Pq L1 L2 NB.
  assert (Q := q1). destruct (total_at 1 0) as (r1 & T1 & C1 & D1). destruct (total_at 0 0) as (r0 & T0 & C0 & D0).
  rewrite Z.mul_1_l in D1. assert (R1 : r1 = t mod q) by (apply (cong_canon_unique q); auto; [apply Z.mod_pos_bound; lia|now rewrite cong_mod]).
  assert (R0 : r0 = 0) by (apply (cong_canon_unique q); auto; lia).
  destruct (fdiv_prime q (fsub q (fadd q (fmul q r1 r1) (gx r1)) r0) 1 Pq) as (v & Ev & Cv & Dv).
  { intros H. apply cong_0_iff in H. apply Z.divide_1_r in H. lia. }
  exists v. split; auto. split.
  - rewrite Z.mul_1_r in Dv. assert (SQ : t * t ==[q] r1 * r1) by now rewrite D1. now rewrite Dv, fsub_cong, fadd_cong, fmul_cong, R0, Z.sub_0_r, <- R1, SQ.
  - unfold solve_row, last_row. cbn [rl rr re ro]. rewrite scan_in. cbn [lift bind]. rewrite scan_in. cbn [lift bind]. rewrite scan_in. cbn [lift bind].
    rewrite scan_out. cbn [lift bind List.length Nat.add Nat.ltb Nat.leb]. rewrite T1. cbn [bind]. rewrite T0. cbn [bind].
    rewrite nth_error_app2 by (unfold zeros; rewrite repeat_length; lia). unfold zeros at 1. rewrite repeat_length. replace (S n - n)%nat with 1%nat by lia.
    cbn [nth_error lift bind]. rewrite Ev. cbn [lift bind]. now rewrite assign_out.
Qed.
Lemma insert_leaf k : insert Leaf k 1 = Some (Node Leaf k 1 1 Leaf).
Proof using Type. unfold insert, tree_put. cbn [node_put get]. unfold set_insert. cbn [get]. rewrite N.eqb_refl. reflexivity. Qed.
Lemma sscan_set u i : nth_error (isset u) i = Some true -> sscan bm [(N.of_nat i, 1)] Leaf u = Some (leaf_at i, [], u).
Proof using Type. intros H. cbn [sscan]. rewrite Nat2N.id, H, insert_leaf. reflexivity. Qed.
Lemma sscan_out : sscan bm [(N.of_nat (S n), 1)] Leaf g = Some (Leaf, [N.of_nat (S n)], g).
Proof using Pq L1 L2 NB. cbn [sscan]. rewrite Nat2N.id, bit_out, NB. reflexivity. Qed.
Lemma stotal_at u i x : nth_error (wit u) i = Some x -> stotal q (leaf_at i) u = Ok (x mod q).
Proof using Type.
  intros H. unfold stotal, sparse_scalar_product, leaf_at. cbn [ascending app fold_left fst snd]. rewrite Nat2N.id, H. cbn [lift]. unfold fmul. now rewrite Z.add_0_l, Z.mul_1_l.
Qed.
Lemma ssolve_last : exists v, 0 <= v < q /\ t * t + gx (t mod q) ==[q] v /\
  ssolve_row q gx bm (last_srow n) g = Ok (St (wit s ++ [t; v]) (isset s ++ [true; true])).
Proof using Pq L1 L2 NB.
  assert (Q := q1). set (r1 := t mod q).
  destruct (fdiv_prime q (fsub q (fadd q (fmul q r1 r1) (gx r1)) 0) 1 Pq) as (v & Ev & Cv & Dv).
  { intros H. apply cong_0_iff in H. apply Z.divide_1_r in H. lia. }
  assert (D1 : r1 ==[q] t) by (unfold r1; now rewrite cong_mod). assert (SQ : t * t ==[q] r1 * r1) by now rewrite D1.
  assert (V : t * t + gx r1 ==[q] v). { rewrite Z.mul_1_r in Dv. now rewrite Dv, fsub_cong, fadd_cong, fmul_cong, Z.sub_0_r, SQ. }
  exists v. split; auto. split; auto. set (u := St (wit s ++ [t; v]) (isset s ++ [true; true])).
  assert (N1 : forall x, nth_error (wit s ++ [t; x]) n = Some t) by (intros x; now rewrite nth_error_app2, L1, Nat.sub_diag by lia).
  assert (N2 : nth_error (wit s ++ [t; v]) (S n) = Some v) by (rewrite nth_error_app2 by lia; now replace (S n - List.length (wit s))%nat with 1%nat by lia).
  assert (B1 : nth_error (isset s ++ [true; true]) n = Some true) by (now rewrite nth_error_app2, L2, Nat.sub_diag by lia).
  assert (B2 : nth_error (isset s ++ [true; true]) (S n) = Some true) by (rewrite nth_error_app2 by lia; now replace (S n - List.length (isset s))%nat with 1%nat by lia).
  unfold ssolve_row, last_srow. cbn [rl rr re ro]. change (ascending (leaf_at n)) with [(N.of_nat n, 1)]. change (ascending (leaf_at (S n))) with [(N.of_nat (S n), 1)].
  rewrite (sscan_set g n bit_in). cbn [lift bind]. rewrite (sscan_set g n bit_in). cbn [lift bind]. rewrite (sscan_set g n bit_in). cbn [lift bind].
  rewrite sscan_out. cbn [lift bind List.length Nat.add Nat.ltb Nat.leb]. rewrite (stotal_at g n t (N1 0)). cbn [bind].
  change (stotal q Leaf g) with (@Ok Z 0). cbn [bind]. fold r1. unfold sget, leaf_at at 1. cbn [get]. rewrite N.eqb_refl. cbn [bind]. rewrite Ev. cbn [lift bind].
  rewrite Nat2N.id, assign_out. cbn [lift bind]. fold u.
  rewrite (sscan_set u n B1). cbn [lift bind]. rewrite (sscan_set u n B1). cbn [lift bind]. rewrite (sscan_set u n B1). cbn [lift bind].
  rewrite (sscan_set u (S n) B2). cbn [lift bind]. rewrite (stotal_at u n t (N1 v)), (stotal_at u (S n) v N2). cbn [bind]. fold r1.
  replace (fadd q (fmul q r1 r1) (gx r1) =? v mod q) with true; [reflexivity|]. symmetry. apply Z.eqb_eq.
  apply (cong_canon_unique q); [apply fadd_range; lia|apply Z.mod_pos_bound; lia|]. rewrite fadd_cong, fmul_cong, cong_mod, <- V, SQ. reflexivity.
Qed.
End L.

(** ** Start *)
Section Start.
Variables (m : imap) (names : list string) (sp : smap) (rnd : Z).
Hypothesis Hm : numbered names m.
Hypothesis R1 : ~ In rand_in names.
Hypothesis R2 : ~ In rand_out names.
Notation n := (List.length m).
Lemma put_inputs_grow inp : (forall x v, In (x, v) inp -> x <> rand_in /\ x <> rand_out) -> forall s s', put_inputs m s inp = Some s' ->
  put_inputs (with_names m) (grow rnd s) inp = Some (grow rnd s').
Proof using Type.
  induction inp as [|[x v] inp IH]; intros A s s'; cbn [put_inputs]; [now intros [= <-]|]. destruct (A x v (or_introl eq_refl)) as [A1 A2].
  rewrite (idx_other m x A1 A2). destruct (assign s (im_idx m x) v) as [s1|] eqn:E; [|discriminate]. rewrite (assign_grow _ _ _ _ _ E). apply IH. intros y u Hy. apply (A y u). now right.
Qed.
Lemma put_bits_grow father zs : forall pos s s', put_bits s father pos zs = Some s' -> put_bits (grow rnd s) father pos zs = Some (grow rnd s').
Proof using Type.
  induction zs as [|z zs IH]; intros pos s s'; cbn [put_bits]; [now intros [= <-]|]. destruct (nth_error (wit s) father) as [v|] eqn:E; [|discriminate].
  cbn [wit grow]. rewrite (nth_grow _ _ _ _ E). destruct (assign s z (bit_of v pos)) as [s1|] eqn:Ea; [|discriminate]. rewrite (assign_grow _ _ _ _ _ Ea). apply IH.
Qed.
Lemma put_splits_grow sp' : (forall k zs, In (k, zs) sp' -> k <> rand_in /\ k <> rand_out) -> forall s b s' b', put_splits m s b sp' = Some (s', b') ->
  put_splits (with_names m) (grow rnd s) b sp' = Some (grow rnd s', b').
Proof using Type.
  induction sp' as [|[k zs] l IH]; intros A s b s' b'; cbn [put_splits]; [now intros [= <- <-]|]. destruct (A k zs (or_introl eq_refl)) as [A1 A2].
  rewrite (idx_other m k A1 A2). destruct (nth_error (isset s) (im_idx m k)) as [kn|] eqn:E; [|discriminate]. cbn [isset grow]. rewrite (nth_grow _ _ _ _ E).
  assert (A' : forall k0 zs0, In (k0, zs0) l -> k0 <> rand_in /\ k0 <> rand_out) by (intros k0 zs0 H0; apply (A k0 zs0); now right).
  destruct kn; [|now apply IH]. destruct (put_bits s (im_idx m k) 0 zs) as [s1|] eqn:Eb; [|discriminate]. rewrite (put_bits_grow _ _ _ _ _ Eb). now apply IH.
Qed.
Lemma start_grow inp s b : (forall x v, In (x, v) inp -> x <> rand_in /\ x <> rand_out) -> (forall k zs, In (k, zs) sp -> k <> rand_in /\ k <> rand_out) ->
  start m sp rnd inp = Some (s, b) -> start (with_names m) sp rnd inp = Some (grow rnd s, b).
Proof using Hm R1 R2.
  intros AI AS. unfold start. rewrite names_length. assert (X0 : im_idx m rand_in = O) by (unfold im_idx; apply (numbered_none _ _ _ Hm) in R1; now rewrite R1).
  rewrite X0. cbn [Nat.eqb]. assert (X1 : im_idx (with_names m) rand_in = n) by (unfold im_idx; now rewrite (get_in m names Hm R1)). rewrite X1.
  destruct (assign (St (zeros n) (repeat false n)) 0 1) as [s0|] eqn:E0; [|discriminate].
  assert (Np : (0 < n)%nat) by (destruct n; [discriminate E0|lia]).
  assert (Z1 : St (zeros (S (S n))) (repeat false (S (S n))) = St (zeros n ++ [0; 0]) (repeat false n ++ [false; false])).
  { f_equal; [apply zeros_wide|]. replace (S (S n)) with (n + 2)%nat by lia. now rewrite repeat_app. }
  rewrite Z1. unfold assign at 1. cbn [wit isset]. unfold assign in E0. cbn [wit isset] in E0.
  destruct (array_set (zeros n) 0 1) as [w0|] eqn:Ew; [|discriminate]. destruct (bset (repeat false n) 0) as [b0|] eqn:Eb; [|discriminate]. injection E0 as <-.
  rewrite (array_set_app _ _ _ _ _ Ew), (bset_app _ _ _ _ Eb).
  assert (Lw : List.length w0 = n) by (apply array_set_some in Ew; destruct Ew as (_ & -> & _); apply repeat_length).
  assert (Lb : List.length b0 = n). { destruct n as [|k]; [lia|]. cbn in Eb. injection Eb as <-. cbn. now rewrite repeat_length. }
  replace (Nat.eqb n 0) with false by (symmetry; apply Nat.eqb_neq; lia).
  assert (As : assign (St (w0 ++ [0; 0]) (b0 ++ [false; false])) n rnd = Some (grow rnd (St w0 b0))).
  { unfold assign, grow. cbn [wit isset]. replace n with (List.length w0 + 0)%nat at 1 by lia. rewrite array_set_past. cbn.
    assert (X : bset (b0 ++ [false; false]) n = Some (b0 ++ [true; false])); [|now rewrite X].
    rewrite <- Lb. clear. induction b0 as [|y l IH]; [reflexivity|]. change (bset ((y :: l) ++ [false; false]) (List.length (y :: l))) with
      (match bset (l ++ [false; false]) (List.length l) with Some r => Some (y :: r) | None => None end). now rewrite IH. }
  rewrite As. destruct (put_inputs m (St w0 b0) inp) as [s2|] eqn:Ei; [|discriminate]. rewrite (put_inputs_grow _ AI _ _ Ei). now apply put_splits_grow.
Qed.
Lemma start_none inp : start m sp rnd inp = None \/ exists s b, start m sp rnd inp = Some (s, b).
Proof using Type. destruct (start m sp rnd inp) as [[s b]|]; eauto. Qed.
End Start.

(** ** Whole systems *)
Lemma solve_rows_app q gx bm r1 r2 : forall s, solve_rows q gx bm (r1 ++ r2) s = bind (solve_rows q gx bm r1 s) (solve_rows q gx bm r2).
Proof. induction r1 as [|r r1 IH]; intros s; cbn [app solve_rows bind]; auto. destruct (solve_row q gx bm r s) as [s'| |]; cbn [bind]; auto. Qed.
Lemma ssolve_rows_app q gx bm r1 r2 : forall s, ssolve_rows q gx bm (r1 ++ r2) s = bind (ssolve_rows q gx bm r1 s) (ssolve_rows q gx bm r2).
Proof. induction r1 as [|r r1 IH]; intros s; cbn [app ssolve_rows bind]; auto. destruct (ssolve_row q gx bm r s) as [s'| |]; cbn [bind]; auto. Qed.
Lemma ext_len s s' : ext s s' -> List.length (wit s') = List.length (wit s) /\ List.length (isset s') = List.length (isset s).
Proof. intros (A & B & _). auto. Qed.
Lemma rand_absent pubs ins gs x : ~ In x (pubs ++ ins ++ out_names gs) -> ~ In x (wire_names pubs ins gs false).
Proof.
  intros H C. apply H. unfold wire_names in C. rewrite !in_app_iff in *. destruct C as [C|[C|[C|[]]]]; auto. right. left. now apply fresh_sub in C.
Qed.
Section Sys.
Variables (pubs ins : list string) (gs : list gate).
Hypothesis Hn : names_ok pubs ins gs true.
Hypothesis Hs : Forall (gate_shape (wire_names pubs ins gs false)) gs.
Lemma names_false : names_ok pubs ins gs false.
Proof using Hn. destruct Hn as (A & B & _). split; auto. split; auto. discriminate. Qed.
Notation names := (wire_names pubs ins gs false).
Lemma r_in : ~ In rand_in names. Proof using Hn. apply rand_absent, (proj2 (proj2 Hn)). reflexivity. Qed.
Lemma r_out : ~ In rand_out names. Proof using Hn. apply rand_absent, (proj2 (proj2 Hn)). reflexivity. Qed.
Lemma build_both m sp : build_index pubs ins gs false = Some (m, sp) -> numbered names m /\ build_index pubs ins gs true = Some (with_names m, sp).
Proof using Hn.
  intros E. destruct (system_names _ _ _ _ _ _ names_false E) as [Hm _]. split; auto. unfold build_index in *.
  destruct (add_gates _ gs) as [[m' sp']|]; [|discriminate]. injection E as -> ->. now rewrite (set_names m names Hm r_in r_out).
Qed.
Lemma gates_own m sp : build_index pubs ins gs false = Some (m, sp) -> Forall (own_names names) gs.
Proof using Hn Hs.
  intros E. destruct (system_names _ _ _ _ _ _ names_false E) as [_ [_ H]]. rewrite Forall_forall in *. intros g Hg. assert (S := Hs g Hg). unfold gate_shape, own_names in *.
  destruct (gtyp g); auto; try (now apply H). apply S.
Qed.
Lemma dense_both d : gates_to_r1cs pubs ins gs false = Some d -> numbered names (index_map d) /\
  gates_to_r1cs pubs ins gs true = Some (ER1CS (with_names (index_map d)) (split_map d) (map wide_row (rows d) ++ [last_row (List.length (index_map d))])).
Proof using Hn Hs.
  unfold gates_to_r1cs. destruct (build_index pubs ins gs false) as [[m sp]|] eqn:E; [|discriminate]. destruct (build_both m sp E) as [Hm ->].
  cbn [with_rand]. destruct (all_some (gate_row m (List.length m)) gs) as [rs|] eqn:ER; [|discriminate]. intros [= <-]. cbn [index_map split_map rows]. split; auto.
  now rewrite names_length, (all_rows_wide m names Hm gs (gates_own m sp E) rs ER), (last_row_eq m names Hm r_in r_out).
Qed.
Lemma sparse_both q s : 1 < q -> Forall numbers_differ gs -> gates_to_sparse_r1cs q pubs ins gs false = Some s -> numbered names (index_map s) /\
  gates_to_sparse_r1cs q pubs ins gs true = Some (ER1CS (with_names (index_map s)) (split_map s) (rows s ++ [last_srow (List.length (index_map s))])).
Proof using Hn Hs.
  intros Q D. unfold gates_to_sparse_r1cs. destruct (build_index pubs ins gs false) as [[m sp]|] eqn:E; [|discriminate]. destruct (build_both m sp E) as [Hm ->].
  cbn [with_rand]. destruct (all_some (sgate_row q m) gs) as [rs|] eqn:ER; [|discriminate]. intros [= <-]. cbn [index_map split_map rows]. split; auto.
  now rewrite (all_srows_same m names Hm q gs (gates_own m sp E) D rs ER), (last_srow_eq m names Hm r_in r_out q Q).
Qed.
(** Bits are wires. *)
Lemma bits_below m sp : build_index pubs ins gs false = Some (m, sp) -> forall j, In j (bit_indices sp) -> (j < List.length m)%nat.
Proof using Hn.
  intros E. destruct (system_names _ _ _ _ _ _ names_false E) as [Hm _]. unfold build_index in E.
  assert (H0 := numbered_inputs ins pubs _ (numbered_pubs pubs [] [] numbered_nil (proj1 Hn))).
  destruct (add_gates _ gs) as [[m' sp']|] eqn:EA; [|discriminate]. injection E as -> ->.
  destruct (add_gates_split gs _ _ [] _ _ H0 EA (NoDup_nil _)) as [ND [B _]]. intros j Hj. unfold bit_indices in Hj. apply in_flat_map in Hj. destruct Hj as ([x zs] & Hx & Hj). cbn [snd] in Hj.
  assert (F : sm_find sp x = zs).
  { clear -ND Hx. induction sp as [|[y l] sp IH]; [easy|]. cbn [map fst] in ND. inversion ND as [|? ? N1 N2]; subst. cbn [sm_find]. destruct Hx as [[= -> ->]|Hx]; [now rewrite String.eqb_refl|].
    destruct (String.eqb_spec y x) as [->|]; [|now apply IH]. exfalso. apply N1. change x with (fst (x, zs)). now apply in_map. }
  assert (X := B x). rewrite F in X. cbn [sm_find map app] in X. assert (Y : In (Some j) (map Some zs)) by now apply in_map. rewrite X in Y.
  apply in_map_iff in Y. destruct Y as (b & Y & _). apply (numbered_get _ _ _ _ Hm) in Y. rewrite (numbered_length _ _ Hm). apply nth_error_Some. congruence.
Qed.
Section Solve.
Variables (q : Z) (gx : Z -> Z) (rnd : Z) (inp : list input_arg).
Hypothesis Pq : prime q.
Hypothesis AI : forall x v, In (x, v) inp -> x <> rand_in /\ x <> rand_out.
Variables (m : imap) (sp : smap).
Hypothesis EB : build_index pubs ins gs false = Some (m, sp).
Hypothesis AS : forall k zs, In (k, zs) sp -> k <> rand_in /\ k <> rand_out.
Definition follows (a b : solved (list Z)) : Prop :=
  match a with
  | Ok W => exists v, 0 <= v < q /\ rnd * rnd + gx (rnd mod q) ==[q] v /\ b = Ok (W ++ [rnd; v])
  | Err => b = Err
  | Panics => True
  end.
Lemma no_bit s b : start m sp rnd inp = Some (s, b) -> bm_get b (S (List.length m)) = None.
Proof using Hn EB.
  intros ES. destruct (bm_get b (S (List.length m))) eqn:E; auto. assert (X := start_bits _ _ _ _ _ _ ES (S (List.length m))).
  assert (Y := bits_below m sp EB (S (List.length m))). unfold is_bit in X. rewrite E in X. assert (Z := Y (X ltac:(discriminate))). lia.
Qed.
Lemma witness_grow rs : follows (calculate_witness q gx m sp rs rnd inp) (calculate_witness q gx (with_names m) sp (map wide_row rs ++ [last_row (List.length m)]) rnd inp).
Proof using Hn Pq AI EB AS.
  assert (Q : 1 < q) by (destruct Pq; lia). destruct (build_both m sp EB) as [Hm _]. unfold calculate_witness.
  destruct (start m sp rnd inp) as [[s b]|] eqn:ES; [|exact I]. rewrite (start_grow m names sp rnd Hm r_in r_out inp s b AI AS ES). cbn [lift bind].
  assert (G := solve_rows_grow q Q gx b rnd rs s). rewrite solve_rows_app. destruct (start_len _ _ _ _ _ _ ES) as [L1 L2].
  destruct (solve_rows q gx b rs s) as [s'| |] eqn:ER; cbn [sim bind follows] in *; [|now rewrite G|exact I]. rewrite G. cbn [bind].
  assert (X := solve_rows_ext _ _ _ _ _ _ ER). destruct (ext_len _ _ X) as [K1 K2].
  destruct (solve_last q Pq gx b rnd s' (List.length m) ltac:(congruence) ltac:(congruence) (no_bit s b ES)) as (v & V1 & V2 & V3).
  exists v. split; auto. split; auto. cbn [solve_rows]. rewrite V3. reflexivity.
Qed.
Lemma switness_grow rs : follows (calculate_sparse_witness q gx m sp rs rnd inp) (calculate_sparse_witness q gx (with_names m) sp (rs ++ [last_srow (List.length m)]) rnd inp).
Proof using Hn Pq AI EB AS.
  assert (Q : 1 < q) by (destruct Pq; lia). destruct (build_both m sp EB) as [Hm _]. unfold calculate_sparse_witness.
  destruct (start m sp rnd inp) as [[s b]|] eqn:ES; [|exact I]. rewrite (start_grow m names sp rnd Hm r_in r_out inp s b AI AS ES). cbn [lift bind].
  assert (G := ssolve_rows_grow q gx b rnd rs s). rewrite ssolve_rows_app. destruct (start_len _ _ _ _ _ _ ES) as [L1 L2].
  destruct (ssolve_rows q gx b rs s) as [s'| |] eqn:ER; cbn [sim bind follows] in *; [|now rewrite G|exact I]. rewrite G. cbn [bind].
  assert (X := ssolve_rows_ext _ _ _ _ _ _ ER). destruct (ext_len _ _ X) as [K1 K2].
  destruct (ssolve_last q Pq gx b rnd s' (List.length m) ltac:(congruence) ltac:(congruence) (no_bit s b ES)) as (v & V1 & V2 & V3).
  exists v. split; auto. split; auto. cbn [ssolve_rows]. rewrite V3. reflexivity.
Qed.
End Solve.
End Sys.
