(** An evaluator for programs over the field ([program_means] of LangSpec.v) that leaves the inputs open:
    a wire is a term over main's inputs.  Known numbers stay below 2^63; programs with divisions of
    numbers by wires, scalarBaseMultiply or larger numbers are left out ([None]).  A proof tool; nothing here
    models code of the repository. *)
Require Import ZArith Lia Bool Ascii String List.
Require Import Verif.Cong Verif.FqModel Verif.FactorModel Verif.FactorSpec Verif.ParserModel Verif.LangSpec.
Import ListNotations.
Local Open Scope string_scope.
Local Open Scope list_scope.
Local Open Scope Z_scope.

Inductive term : Type := TNum (z : Z) | TVar (x : string) | TAdd (a b : term) | TSub (a b : term) | TMul (a b : term).
Fixpoint tden (w : assignment) (t : term) : Z :=
  match t with
  | TNum z => z
  | TVar x => w x
  | TAdd a b => tden w a + tden w b
  | TSub a b => tden w a - tden w b
  | TMul a b => tden w a * tden w b
  end.
Inductive sval : Type := SKnown (z : Z) | SWire (t : term).
Definition vden (w : assignment) (v : sval) : value := match v with SKnown z => Known z | SWire t => Wire (tden w t) end.
Definition aden (w : assignment) (l : list (term * term)) : list (Z * Z) := map (fun e => (tden w (fst e), tden w (snd e))) l.
Definition senv := list (string * sval).
Definition eden (w : assignment) (m : senv) : list (string * value) := map (fun e => (fst e, vden w (snd e))) m.
Definition term_of (v : sval) : term := match v with SKnown z => TNum z | SWire t => t end.
Definition small (z : Z) : bool := (0 <=? z) && (z <? 2 ^ 63).

Definition term_op (o : string) (a b : term) : option term :=
  if String.eqb o "+" then Some (TAdd a b) else if String.eqb o "-" then Some (TSub a b) else if String.eqb o "*" then Some (TMul a b) else None.
Definition known_op (o : string) (a b : Z) : option Z :=
  if String.eqb o "+" then Some (a + b) else if String.eqb o "-" then Some (a - b) else if String.eqb o "*" then Some (a * b) else None.
Definition op_f (o : string) (a b : sval) : option sval :=
  match a, b with
  | SKnown x, SKnown y => match known_op o x y with Some z => if small z then Some (SKnown z) else None | None => None end
  | _, _ => match term_op o (term_of a) (term_of b) with Some t => Some (SWire t) | None => None end
  end.
Definition cmp_f (o : string) (a b : sval) : option bool :=
  match a, b with
  | SKnown x, SKnown y =>
    if String.eqb o "==" then Some (x =? y) else if String.eqb o "!=" then Some (negb (x =? y)) else
    if String.eqb o "<" then Some (x <? y) else if String.eqb o "<=" then Some (x <=? y) else
    if String.eqb o ">" then Some (y <? x) else if String.eqb o ">=" then Some (y <=? x) else None
  | _, _ => None
  end.
Definition asks := list (term * term).

Section Eval.
Variable fs : defs.
Fixpoint ev_f (n : nat) (m : senv) (s : asks) (e : exp) {struct n} : option (sval * asks) :=
  match n with
  | O => None
  | S n =>
    match e with
    | Num x => match set_string10 x with Some z => if small z then Some (SKnown z, s) else None | None => None end
    | Var x => match find_at x m with Some u => Some (u, s) | None => None end
    | Bin o a b =>
      match ev_f n m s a with
      | Some (va, s1) => match ev_f n m s1 b with
                         | Some (vb, s2) => match op_f o va vb with Some v => Some (v, s2) | None => None end
                         | None => None end
      | None => None end
    | Base _ => None
    | Call f args =>
      match evs_f n m s args with
      | Some (vs, s1) => match call_f n s1 f vs with Some (Some v, s2) => Some (v, s2) | _ => None end
      | None => None end
    | Idx a es =>
      match idxs_f n m es with
      | Some l => match find_at (element a l) m with Some u => Some (u, s) | None => None end
      | None => None end
    end
  end
with idxs_f (n : nat) (m : senv) (es : list exp) {struct n} : option (list Z) :=
  match n with
  | O => None
  | S n =>
    match es with
    | [] => Some []
    | e :: es' =>
      match ev_f n m [] e with
      | Some (SKnown i, _) => if small i then match idxs_f n m es' with Some l => Some (i :: l) | None => None end else None
      | _ => None end
    end
  end
with evs_f (n : nat) (m : senv) (s : asks) (es : list exp) {struct n} : option (list sval * asks) :=
  match n with
  | O => None
  | S n =>
    match es with
    | [] => Some ([], s)
    | e :: es' =>
      match ev_f n m s e with
      | Some (v, s1) => match evs_f n m s1 es' with Some (vs, s2) => Some (v :: vs, s2) | None => None end
      | None => None end
    end
  end
with call_f (n : nat) (s : asks) (f : string) (vs : list sval) {struct n} : option (option sval * asks) :=
  match n with
  | O => None
  | S n =>
    match find_at f fs with
    | Some (Fun ps body) =>
      if Nat.eqb (length ps) (length vs) then
        match xb_f n (combine ps vs) s body with Some (_, r, s1) => Some (r, s1) | None => None end
      else None
    | None => None end
  end
with xs_f (n : nat) (m : senv) (s : asks) (t : stmt) {struct n} : option (senv * option sval * bool * asks) :=
  match n with
  | O => None
  | S n =>
    match t with
    | Decl x e => match ev_f n m s e with Some (v, s1) => Some (m ++ [(x, v)], Some v, false, s1) | None => None end
    | Assign x e =>
      match ev_f n m s e, find_at x m with
      | Some (v, s1), Some _ => Some (put_at x v m, Some v, false, s1)
      | _, _ => None end
    | Equal a b =>
      match ev_f n m s a with
      | Some (va, s1) => match ev_f n m s1 b with
                         | Some (vb, s2) => Some (m, None, false, s2 ++ [(term_of va, term_of vb)])
                         | None => None end
      | None => None end
    | Do f args =>
      match evs_f n m s args with
      | Some (vs, s1) => match call_f n s1 f vs with Some (r, s2) => Some (m, r, false, s2) | None => None end
      | None => None end
    | Return e => match ev_f n m s e with Some (v, s1) => Some (m, Some v, true, s1) | None => None end
    | For c x e body =>
      match test_f n m c with
      | Some false => Some (m, None, false, s)
      | Some true =>
        match xb_f n m s body with
        | Some (m1, None, s1) =>
          match ev_f n (firstn (length m) m1) s1 e, find_at x m with
          | Some (v, s2), Some _ =>
            match xs_f n (put_at x v (firstn (length m) m1)) s2 (For c x e body) with
            | Some (m2, None, false, s3) => Some (m2, None, false, s3)
            | _ => None end
          | _, _ => None end
        | _ => None end
      | None => None end
    | If c body =>
      match test_f n m c with
      | Some false => Some (m, None, false, s)
      | Some true =>
        match xb_f n m s body with
        | Some (m1, r, s1) => Some (firstn (length m) m1, r, match r with Some _ => true | None => false end, s1)
        | None => None end
      | None => None end
    | Public x => Some (m, None, false, s)
    | Put a es e =>
      match idxs_f n m es, ev_f n m s e with
      | Some l, Some (v, s1) => match find_at (element a l) m with
                                | Some _ => Some (put_at (element a l) v m, Some v, false, s1)
                                | None => None end
      | _, _ => None end
    | Array x => Some (m, None, false, s)
    end
  end
with xb_f (n : nat) (m : senv) (s : asks) (ts : list stmt) {struct n} : option (senv * option sval * asks) :=
  match n with
  | O => None
  | S n =>
    match ts with
    | [] => Some (m, None, s)
    | t :: ts' =>
      match xs_f n m s t with
      | Some (m1, v, true, s1) => Some (m1, v, s1)
      | Some (m1, _, false, s1) => xb_f n m1 s1 ts'
      | None => None end
    end
  end
with test_f (n : nat) (m : senv) (c : cond) {struct n} : option bool :=
  match n with
  | O => None
  | S n =>
    match ev_f n m [] (cleft c), ev_f n m [] (cright c) with
    | Some (va, _), Some (vb, _) => cmp_f (cop c) va vb
    | _, _ => None end
  end.
Fixpoint mb_f (n : nat) (m : senv) (s : asks) (ts : list stmt) {struct ts} : option (option sval * asks) :=
  match ts with
  | [] => Some (None, s)
  | t :: ts' =>
    match xs_f n m s t with
    | Some (_, v, true, s1) => Some (v, s1)
    | Some (m1, _, false, s1) => mb_f n m1 s1 ts'
    | None => None end
  end.
Definition program_f (n : nat) : option (option sval * asks) :=
  match find_at "main" fs with
  | Some (Fun ins body) => mb_f n (map (fun x => (x, SWire (TVar x))) ins) [] body
  | None => None end.
End Eval.

(** ** The evaluator is right *)
Lemma find_map {A B} (f : A -> B) x m : find_at x (map (fun e => (fst e, f (snd e))) m) = option_map f (find_at x m).
Proof. induction m as [|[y a] m IH]; cbn; auto. destruct (String.eqb x y); auto. Qed.
Lemma put_map {A B} (f : A -> B) x a m : put_at x (f a) (map (fun e => (fst e, f (snd e))) m) = map (fun e => (fst e, f (snd e))) (put_at x a m).
Proof. induction m as [|[y b] m IH]; cbn; auto. destruct (String.eqb x y); cbn; auto. now rewrite IH. Qed.
Lemma combine_map {A B} (f : A -> B) ps : forall vs, combine ps (map f vs) = map (fun e => (fst e, f (snd e))) (combine ps vs : list (string * A)).
Proof. induction ps as [|p ps IH]; intros [|v vs]; cbn; auto. now rewrite IH. Qed.

Section Right.
Variables (q : Z) (gx : Z -> Z) (fs : defs) (w : assignment).
Hypothesis Q : 2 ^ 63 <= q.
Notation D := (field_values q gx).

Lemma small_ok z : small z = true -> 0 <= z < q /\ 0 <= z < 2 ^ 63.
Proof using Q. unfold small. intros H. apply andb_prop in H. destruct H as [A B]. apply Z.leb_le in A. apply Z.ltb_lt in B. lia. Qed.
Lemma term_op_ok o a b t : term_op o a b = Some t -> result_of q o (tden w a) (tden w b) (tden w t).
Proof.
  unfold term_op. intros H. destruct (String.eqb_spec o "+") as [->|]; [injection H as <-; apply result_add, cong_refl|].
  destruct (String.eqb_spec o "-") as [->|]; [injection H as <-; apply result_sub, cong_refl|].
  destruct (String.eqb_spec o "*") as [->|]; [injection H as <-; apply result_mul, cong_refl|]. discriminate.
Qed.
Lemma known_op_ok o a b z : known_op o a b = Some z -> result_of q o a b z.
Proof.
  unfold known_op. intros H. destruct (String.eqb_spec o "+") as [->|]; [injection H as <-; apply result_add, cong_refl|].
  destruct (String.eqb_spec o "-") as [->|]; [injection H as <-; apply result_sub, cong_refl|].
  destruct (String.eqb_spec o "*") as [->|]; [injection H as <-; apply result_mul, cong_refl|]. discriminate.
Qed.
Lemma den_term v : num_of (vden w v) = tden w (term_of v).
Proof. now destruct v. Qed.
Lemma op_f_ok o a b v : op_f o a b = Some v -> value_op q o (vden w a) (vden w b) (vden w v).
Proof using Q.
  destruct a as [x|x]; destruct b as [y|y]; cbn [op_f term_of]; intros H.
  - destruct (known_op o x y) as [z|] eqn:E; [|discriminate]. destruct (small z) eqn:S0; [|discriminate]. injection H as <-.
    apply value_known; [apply small_ok, S0|apply known_op_ok, E].
  - destruct (term_op o (TNum x) y) as [t|] eqn:E; [|discriminate]. injection H as <-. apply value_right. exact (term_op_ok _ _ _ _ E).
  - destruct (term_op o x (TNum y)) as [t|] eqn:E; [|discriminate]. injection H as <-. apply value_left. exact (term_op_ok _ _ _ _ E).
  - destruct (term_op o x y) as [t|] eqn:E; [|discriminate]. injection H as <-. apply value_left. exact (term_op_ok _ _ _ _ E).
Qed.
Lemma cmp_f_ok o a b r : cmp_f o a b = Some r -> compared o (vden w a) (vden w b) r.
Proof.
  destruct a as [x|x]; destruct b as [y|y]; cbn [cmp_f vden]; intros H; try discriminate.
  repeat match type of H with (if String.eqb o ?k then _ else _) = _ => destruct (String.eqb_spec o k) as [->|]; [injection H as <-; constructor|] end. discriminate.
Qed.
Lemma aden_app a b : aden w (a ++ b) = aden w a ++ aden w b.
Proof. apply map_app. Qed.
Lemma eden_find x m u : find_at x m = Some u -> find_at x (eden w m) = Some (vden w u).
Proof. intros E. unfold eden. rewrite find_map, E. reflexivity. Qed.
Lemma eden_some x m u : find_at x m = Some u -> find_at x (eden w m) <> None.
Proof. intros E. rewrite (eden_find _ _ _ E). discriminate. Qed.
Lemma eden_length m : length (eden w m) = length m.
Proof. apply map_length. Qed.
Lemma eden_firstn k m : firstn k (eden w m) = eden w (firstn k m).
Proof. apply firstn_map. Qed.

Definition right (n : nat) : Prop :=
  (forall m s e v s', ev_f fs n m s e = Some (v, s') -> ev D fs (eden w m) (aden w s) e (vden w v) (aden w s')) /\
  (forall m es l, idxs_f fs n m es = Some l -> idxs D fs (eden w m) es l) /\
  (forall m s es vs s', evs_f fs n m s es = Some (vs, s') -> evs D fs (eden w m) (aden w s) es (map (vden w) vs) (aden w s')) /\
  (forall s f vs r s', call_f fs n s f vs = Some (r, s') -> call D fs (aden w s) f (map (vden w) vs) (option_map (vden w) r) (aden w s')) /\
  (forall m s t m' r b s', xs_f fs n m s t = Some (m', r, b, s') -> xs D fs (eden w m) (aden w s) t (eden w m') (option_map (vden w) r) b (aden w s')) /\
  (forall m s ts m' r s', xb_f fs n m s ts = Some (m', r, s') -> xb D fs (eden w m) (aden w s) ts (eden w m') (option_map (vden w) r) (aden w s')) /\
  (forall m c b, test_f fs n m c = Some b -> test D fs (eden w m) c b).

Lemma eval_right n : right n.
Proof using Q.
  induction n as [|n (I1 & I2 & I3 & I4 & I5 & I6 & I7)]; [repeat split; intros; discriminate|]. unfold right. repeat split.
  - intros m s e v s' H. simpl in H. destruct e as [x|x|o a b|a|f args|a es].
    + destruct (set_string10 x) as [z|] eqn:E; [|discriminate]. destruct (small z) eqn:B; [|discriminate]. injection H as <- <-.
      apply ev_num. exists z. split; [exact E|]. cbn [vden]. rewrite Z.mod_small; [reflexivity|apply small_ok, B].
    + destruct (find_at x m) as [u|] eqn:E; [|discriminate]. injection H as <- <-. eapply ev_var; [exact (eden_find _ _ _ E)|reflexivity].
    + destruct (ev_f fs n m s a) as [[va s1]|] eqn:Ea; [|discriminate]. destruct (ev_f fs n m s1 b) as [[vb s2]|] eqn:Eb; [|discriminate].
      destruct (op_f o va vb) as [u|] eqn:Eo; [|discriminate]. injection H as <- <-.
      eapply ev_bin; [exact (I1 _ _ _ _ _ Ea)|exact (I1 _ _ _ _ _ Eb)|]. split; [exact (op_f_ok _ _ _ _ Eo)|reflexivity].
    + discriminate.
    + destruct (evs_f fs n m s args) as [[vs s1]|] eqn:Ea; [|discriminate]. destruct (call_f fs n s1 f vs) as [[[u|] s2]|] eqn:Ec; try discriminate. injection H as <- <-.
      eapply ev_call; [exact (I3 _ _ _ _ _ Ea)|exact (I4 _ _ _ _ _ Ec)].
    + destruct (idxs_f fs n m es) as [l|] eqn:Ei; [|discriminate]. destruct (find_at (element a l) m) as [u|] eqn:E; [|discriminate]. injection H as <- <-.
      eapply ev_idx; [exact (I2 _ _ _ Ei)|exact (eden_find _ _ _ E)|reflexivity].
  - intros m es l H. simpl in H. destruct es as [|e es]; [injection H as <-; apply idxs_nil|].
    destruct (ev_f fs n m [] e) as [[[i|t] s1]|] eqn:E; try discriminate. destruct (small i) eqn:B; [|discriminate].
    destruct (idxs_f fs n m es) as [l'|] eqn:Ei; [|discriminate]. injection H as <-.
    eapply idxs_cons; [exact (I1 _ _ _ _ _ E)| |exact (I2 _ _ _ Ei)]. split; [reflexivity|]. split; [apply small_ok, B|exact Q].
  - intros m s es vs s' H. simpl in H. destruct es as [|e es]; [injection H as <- <-; apply evs_nil|].
    destruct (ev_f fs n m s e) as [[v s1]|] eqn:E; [|discriminate]. destruct (evs_f fs n m s1 es) as [[vs' s2]|] eqn:Es; [|discriminate]. injection H as <- <-.
    cbn [map]. eapply evs_cons; [exact (I1 _ _ _ _ _ E)|exact (I3 _ _ _ _ _ Es)].
  - intros s f vs r s' H. simpl in H. destruct (find_at f fs) as [[ps body]|] eqn:E; [|discriminate].
    destruct (Nat.eqb_spec (length ps) (length vs)) as [L|]; [|discriminate]. destruct (xb_f fs n (combine ps vs) s body) as [[[m r'] s1]|] eqn:Eb; [|discriminate]. injection H as <- <-.
    eapply call_fun; [exact E|now rewrite map_length|]. rewrite combine_map. exact (I6 _ _ _ _ _ _ Eb).
  - intros m s t m' r b s' H. simpl in H. destruct t as [x e|x e|a b0|f args|e|c x e body|c body|x|a es e|x].
    + destruct (ev_f fs n m s e) as [[v s1]|] eqn:E; [|discriminate]. injection H as <- <- <- <-. unfold eden at 2. rewrite map_app. apply xs_decl. exact (I1 _ _ _ _ _ E).
    + destruct (ev_f fs n m s e) as [[v s1]|] eqn:E; [|discriminate]. destruct (find_at x m) as [u|] eqn:Ex; [|discriminate]. injection H as <- <- <- <-.
      unfold eden at 2. rewrite <- (put_map (vden w)). apply xs_assign; [exact (I1 _ _ _ _ _ E)|exact (eden_some _ _ _ Ex)].
    + destruct (ev_f fs n m s a) as [[va s1]|] eqn:Ea; [|discriminate]. destruct (ev_f fs n m s1 b0) as [[vb s2]|] eqn:Eb; [|discriminate]. injection H as <- <- <- <-.
      eapply xs_equal; [exact (I1 _ _ _ _ _ Ea)|exact (I1 _ _ _ _ _ Eb)|]. cbn [dequal field_values]. rewrite !den_term. apply aden_app.
    + destruct (evs_f fs n m s args) as [[vs s1]|] eqn:Ea; [|discriminate]. destruct (call_f fs n s1 f vs) as [[r' s2]|] eqn:Ec; [|discriminate]. injection H as <- <- <- <-.
      eapply xs_do; [exact (I3 _ _ _ _ _ Ea)|exact (I4 _ _ _ _ _ Ec)].
    + destruct (ev_f fs n m s e) as [[v s1]|] eqn:E; [|discriminate]. injection H as <- <- <- <-. apply xs_return. exact (I1 _ _ _ _ _ E).
    + destruct (test_f fs n m c) as [[|]|] eqn:Et; [|injection H as <- <- <- <-; apply xs_for_end; exact (I7 _ _ _ Et)|discriminate].
      destruct (xb_f fs n m s body) as [[[m1 [|]] s1]|] eqn:Eb; try discriminate.
      destruct (ev_f fs n (firstn (length m) m1) s1 e) as [[v s2]|] eqn:Ee; [|discriminate]. destruct (find_at x m) as [u|] eqn:Ex; [|discriminate].
      destruct (xs_f fs n (put_at x v (firstn (length m) m1)) s2 (For c x e body)) as [[[[m2 [|]] [|]] s3]|] eqn:Ef; try discriminate. injection H as <- <- <- <-.
      eapply xs_for; [exact (I7 _ _ _ Et)|exact (I6 _ _ _ _ _ _ Eb)| |exact (eden_some _ _ _ Ex)|].
      * rewrite eden_length, eden_firstn. exact (I1 _ _ _ _ _ Ee).
      * rewrite eden_length, eden_firstn. unfold eden at 1. rewrite (put_map (vden w)). exact (I5 _ _ _ _ _ _ _ Ef).
    + destruct (test_f fs n m c) as [[|]|] eqn:Et; [|injection H as <- <- <- <-; apply xs_if_not; exact (I7 _ _ _ Et)|discriminate].
      destruct (xb_f fs n m s body) as [[[m1 r'] s1]|] eqn:Eb; [|discriminate]. injection H as <- <- <- <-.
      rewrite <- eden_firstn, <- (eden_length m). replace (match r' with Some _ => true | None => false end) with (match option_map (vden w) r' with Some _ => true | None => false end) by now destruct r'.
      eapply xs_if; [exact (I7 _ _ _ Et)|exact (I6 _ _ _ _ _ _ Eb)].
    + injection H as <- <- <- <-. apply xs_public.
    + destruct (idxs_f fs n m es) as [l|] eqn:Ei; [|discriminate]. destruct (ev_f fs n m s e) as [[v s1]|] eqn:E; [|discriminate].
      destruct (find_at (element a l) m) as [u|] eqn:Ex; [|discriminate]. injection H as <- <- <- <-.
      unfold eden at 2. rewrite <- (put_map (vden w)). eapply xs_set; [exact (I2 _ _ _ Ei)|exact (I1 _ _ _ _ _ E)|exact (eden_some _ _ _ Ex)].
    + injection H as <- <- <- <-. apply xs_array.
  - intros m s ts m' r s' H. simpl in H. destruct ts as [|t ts]; [injection H as <- <- <-; apply xb_nil|].
    destruct (xs_f fs n m s t) as [[[[m1 v] [|]] s1]|] eqn:E; [| |discriminate].
    + injection H as <- <- <-. apply xb_return. exact (I5 _ _ _ _ _ _ _ E).
    + eapply xb_cons; [exact (I5 _ _ _ _ _ _ _ E)|exact (I6 _ _ _ _ _ _ H)].
  - intros m c b H. simpl in H. destruct (ev_f fs n m [] (cleft c)) as [[va s1]|] eqn:Ea; [|discriminate].
    destruct (ev_f fs n m [] (cright c)) as [[vb s2]|] eqn:Eb; [|discriminate].
    eapply test_cmp; [exact (I1 _ _ _ _ _ Ea)|exact (I1 _ _ _ _ _ Eb)|exact (cmp_f_ok _ _ _ _ H)].
Qed.
Lemma main_right n ts : forall m s r s', mb_f fs n m s ts = Some (r, s') -> mb D fs (eden w m) (aden w s) ts (option_map (vden w) r) (aden w s').
Proof using Q.
  induction ts as [|t ts IH]; intros m s r s' H; cbn [mb_f] in H; [injection H as <- <-; apply mb_nil|].
  destruct (eval_right n) as (_ & _ & _ & _ & I5 & _). destruct (xs_f fs n m s t) as [[[[m1 v] [|]] s1]|] eqn:E; [| |discriminate].
  - injection H as <- <-. eapply mb_return; [exact (I5 _ _ _ _ _ _ _ E)|reflexivity].
  - eapply mb_cons; [exact (I5 _ _ _ _ _ _ _ E)|reflexivity|]. exact (IH _ _ _ _ H).
Qed.
Lemma program_right n v asked : program_f fs n = Some (v, asked) -> program_means q gx fs w (option_map (vden w) v) (aden w asked).
Proof using Q.
  unfold program_f. destruct (find_at "main" fs) as [[ins body]|] eqn:E; [|discriminate]. intros H. exists ins, body. split; [exact E|].
  assert (M := main_right _ _ _ _ _ _ H). unfold eden in M at 1. rewrite map_map in M. exact M.
Qed.
End Right.

(** ** A checker for [enc_prog] *)
Fixpoint enc_f (n : nat) (e : exp) (c : ctree) {struct n} : bool :=
  match n with
  | O => false
  | S n =>
    match c with
    | Con (Tok ty s) ins =>
      match ty, ins, e with
      | TNumber, [], Num x => String.eqb s x
      | TIdent, [], Var x => String.eqb s x
      | TUnassigned, [c1], _ => enc_f n e c1
      | TUnassigned, [Con (Tok TArith o') []; ca; cb], Bin o a b => String.eqb o' o && enc_f n a ca && enc_f n b cb
      | TCall, [c1], Base e1 => String.eqb s "scalarBaseMultiply" && enc_f n e1 c1
      | TCall, _, Call f es => String.eqb s f && encs_f n es ins
      | TArrCall, _, Idx a es => String.eqb s a && encs_f n es ins
      | _, _, _ => false
      end
    end
  end
with encs_f (n : nat) (es : list exp) (cs : list ctree) {struct n} : bool :=
  match n with
  | O => false
  | S n =>
    match es, cs with
    | [], [] => true
    | e :: es', c :: cs' => enc_f n e c && encs_f n es' cs'
    | _, _ => false
    end
  end.
Ltac open_match H := repeat match type of H with
  | (match ?x with _ => _ end) = _ => destruct x; try discriminate H
  | (_ && _)%bool = true => apply andb_prop in H; let K := fresh "K" in destruct H as [H K]
  | String.eqb _ _ = true => apply String.eqb_eq in H; subst
  end.
Lemma enc_right n : (forall e c, enc_f n e c = true -> enc e c) /\ (forall es cs, encs_f n es cs = true -> encs es cs).
Proof.
  induction n as [|n [I1 I2]]; [split; intros; discriminate|]. split.
  - intros e c H. simpl in H. open_match H.
    all: try (constructor; auto; fail).
    all: try (apply String.eqb_eq in H; subst; constructor; auto; fail).
  - intros es cs H. simpl in H. open_match H; constructor; auto.
Qed.
Definition cond_f (n : nat) (c : cond) (t : ctree) : bool :=
  match c, t with
  | Cmp o a b, Con (Tok TUnassigned _) [Con (Tok TCompare o') []; ca; cb] => String.eqb o' o && enc_f n a ca && enc_f n b cb
  | _, _ => false
  end.
Lemma cond_right n c t : cond_f n c t = true -> enc_cond c t.
Proof. destruct (enc_right n) as [I1 _]. intros H. unfold cond_f in H. open_match H. constructor; auto. Qed.
(** The rest of the list after the statement.  Declarations of arrays are left out. *)
Definition stmt_f1 (n : nat) (block : list stmt -> list ctree -> option (list ctree)) (t : stmt) (cs : list ctree) : option (list ctree) :=
  match cs with
  | [] => None
  | Con (Tok ty s) ins :: r =>
    match t, ty, ins with
    | Decl x e, TVarDecl, [c] => if String.eqb s x && enc_f n e c then Some r else None
    | Assign x e, TOverload, [Con (Tok TIdent x') []; c] => if String.eqb x' x && enc_f n e c then Some r else None
    | Equal a b, TCall, [ca; cb] => if String.eqb s "equal" && enc_f n a ca && enc_f n b cb then Some r else None
    | Do f es, TCall, _ => if String.eqb s f && encs_f n es ins then Some r else None
    | Return e, TReturn, [c] => if enc_f n e c then Some r else None
    | For c x e body, TFor, [cc; Con (Tok TOverload _) [Con (Tok TIdent x') []; ce]] =>
      if String.eqb x' x && cond_f n c cc && enc_f n e ce then
        match block body r with Some (Con (Tok TNestedEnd _) [] :: r') => Some r' | _ => None end
      else None
    | If c body, TIf, [cc] =>
      if cond_f n c cc then
        match block body r with Some (Con (Tok TNestedEnd _) [] :: Con (Tok TIfEnd _) [] :: r') => Some r' | _ => None end
      else None
    | Public x, TPublic, [] => if String.eqb s x then Some r else None
    | Put a es e, TOverload, [Con (Tok TArrCall a') cs'; c] => if String.eqb a' a && encs_f n es cs' && enc_f n e c then Some r else None
    | _, _, _ => None
    end
  end.
Fixpoint block_f (n : nat) (ts : list stmt) (cs : list ctree) {struct n} : option (list ctree) :=
  match n with
  | O => None
  | S n =>
    match ts with
    | [] => Some cs
    | t :: ts' => match stmt_f1 n (block_f n) t cs with Some r => block_f n ts' r | None => None end
    end
  end.
Lemma stmt_right n block t cs r : (forall ts l l', block ts l = Some l' -> exists c, l = c ++ l' /\ enc_block ts c) ->
  stmt_f1 n block t cs = Some r -> exists c, cs = c ++ r /\ enc_stmt t c.
Proof.
  intros B H. destruct (enc_right n) as [I1 I2]. assert (I3 := cond_right n). unfold stmt_f1 in H.
  destruct cs as [|[[ty s] ins] cs]; [discriminate|].
  assert (One : forall c, cs = r -> enc_stmt t [c] -> exists d, c :: cs = d ++ r /\ enc_stmt t d) by (intros c -> Ec; exists [c]; split; [reflexivity|exact Ec]).
  destruct t as [x e|x e|a b|f es|e|c x e body|c body|x|a es e|x]; destruct ty; try discriminate H.
  all: repeat match type of H with
    | (if ?b then _ else _) = _ => let K := fresh "K" in destruct b eqn:K; [|discriminate H]; repeat (apply andb_prop in K; let K2 := fresh "K" in destruct K as [K K2])
    | (match ?x with _ => _ end) = _ => tryif is_var x then (destruct x; try discriminate H) else (let E := fresh "E" in destruct x eqn:E; [|discriminate H])
    end.
  all: repeat match goal with K : String.eqb _ _ = true |- _ => apply String.eqb_eq in K; subst end.
  all: try (injection H as H; apply One; [exact H|constructor; auto]; fail).
  - injection H as <-. apply B in E. destruct E as (d & -> & Eb). eexists (_ :: d ++ [_]). split; [cbn [app]; rewrite <- app_assoc; reflexivity|].
    apply enc_for; auto. split; reflexivity.
  - injection H as <-. apply B in E. destruct E as (d & -> & Eb). eexists (_ :: d ++ [_; _]). split; [cbn [app]; rewrite <- app_assoc; reflexivity|].
    apply enc_if; auto; split; reflexivity.
Qed.
Lemma block_right n : forall ts cs r, block_f n ts cs = Some r -> exists c, cs = c ++ r /\ enc_block ts c.
Proof.
  induction n as [|n IH]; [discriminate|]. intros ts cs r H. cbn [block_f] in H. destruct ts as [|t ts]; [injection H as <-; exists []; split; [reflexivity|constructor]|].
  destruct (stmt_f1 n (block_f n) t cs) as [l|] eqn:E; [|discriminate]. destruct (stmt_right _ _ _ _ _ IH E) as (c & -> & Ec).
  destruct (IH _ _ _ H) as (d & -> & Ed). exists (c ++ d). split; [apply app_assoc|]. now apply enc_cons.
Qed.
Fixpoint params_f (ps : list string) (cs : list ctree) : bool :=
  match ps, cs with
  | [], [] => true
  | p :: ps', Con (Tok TArgument x) [] :: cs' => String.eqb x p && params_f ps' cs'
  | _, _ => false
  end.
Lemma params_right ps : forall cs, params_f ps cs = true -> cs = map (fun x => Con (Tok TArgument x) []) ps.
Proof.
  induction ps as [|p ps IH]; intros cs H; cbn [params_f] in H; open_match H; [reflexivity|]. cbn [map]. f_equal. now apply IH.
Qed.
Fixpoint prog_f (n : nat) (fs : defs) (cs : list ctree) {struct fs} : bool :=
  match fs with
  | [] => match cs with [] => true | _ => false end
  | (f, Fun ps body) :: fs' =>
    match cs with
    | Con (Tok TFuncDef s) ins :: r =>
      String.eqb s f && params_f ps ins && match block_f n body r with Some (Con (Tok TNestedEnd _) [] :: r') => prog_f n fs' r' | _ => false end
    | _ => false
    end
  end.
Lemma prog_right n fs : forall cs, prog_f n fs cs = true -> enc_prog fs cs.
Proof.
  induction fs as [|[f [ps body]] fs IH]; intros cs H; cbn [prog_f] in H; [destruct cs; [constructor|discriminate]|].
  destruct cs as [|[[ty s] ins] cs]; [discriminate|]. destruct ty; try discriminate H. apply andb_prop in H. destruct H as [H H2]. apply andb_prop in H. destruct H as [H0 H1].
  apply String.eqb_eq in H0. subst s. apply params_right in H1. subst ins. destruct (block_f n body cs) as [l|] eqn:E; [|discriminate]. open_match H2.
  destruct (block_right _ _ _ _ E) as (c & -> & Ec). apply enc_fun; [exact Ec|split; reflexivity|]. now apply IH.
Qed.
