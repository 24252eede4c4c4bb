(** Every entry of a computed witness is an input, the random value or a canonical field element. *)
Require Import ZArith NArith Lia Bool String List.
Require Import Verif.FqModel Verif.PolyModel Verif.AvlModel Verif.SparseModel Verif.FactorModel Verif.R1csModel Verif.WitnessModel Verif.WitnessProofs.
Import ListNotations.
Local Open Scope Z_scope.

Section P.
Variables (q : Z) (gx : Z -> Z) (bm : bitmap) (P : Z -> Prop).
Hypothesis Hq : 1 < q.
Hypothesis PC : forall v, 0 <= v < q -> P v.
Lemma assign_all s i v s' : assign s i v = Some s' -> P v -> Forall P (wit s) -> Forall P (wit s').
Proof.
  unfold assign. destruct (array_set (wit s) i v) as [w|] eqn:E; [|discriminate]. destruct (bset (isset s) i) as [b|]; [|discriminate]. intros [= <-] Hv. cbn [wit]. clear b.
  revert i w E. induction (wit s) as [|x l IH]; intros i w E H; [discriminate|]. inversion H; subst. cbn in E. destruct i as [|i].
  - injection E as <-. now constructor.
  - destruct (array_set l i v) eqn:E'; [|discriminate]. injection E as <-. constructor; eauto.
Qed.
Lemma bit_all v i : P (bit_of v i).
Proof. apply PC. destruct (bit_of_01 v i) as [-> | ->]; lia. Qed.
Lemma scan_all arr : forall j s k u s', scan bm j arr s = Some (k, u, s') -> Forall P (wit s) -> Forall P (wit s').
Proof.
  induction arr as [|v arr IH]; intros j s k u s' E H; cbn [scan] in E; [now injection E as _ _ <-|].
  destruct (v =? 0).
  { destruct (scan bm (S j) arr s) as [[[k1 u1] s1]|] eqn:E1; [|discriminate]. injection E as _ _ <-. eauto. }
  destruct (nth_error (isset s) j) as [[|]|]; [| |discriminate].
  { destruct (scan bm (S j) arr s) as [[[k1 u1] s1]|] eqn:E1; [|discriminate]. injection E as _ _ <-. eauto. }
  destruct (bm_get bm j) as [[pos father]|].
  - destruct (nth_error (wit s) father) as [f|]; [|discriminate]. destruct (assign s j (bit_of f pos)) as [s1|] eqn:EA; [|discriminate].
    destruct (scan bm (S j) arr s1) as [[[k1 u1] s2]|] eqn:E1; [|discriminate]. injection E as _ _ <-. eapply IH; eauto. eapply assign_all; eauto. apply bit_all.
  - destruct (scan bm (S j) arr s) as [[[k1 u1] s1]|] eqn:E1; [|discriminate]. injection E as _ _ <-. eauto.
Qed.
Lemma fdiv_range a b v : fdiv q a b = Some v -> 0 <= v < q.
Proof. unfold fdiv. destruct (finv q b) as [i|]; [|discriminate]. intros [= <-]. apply Z.mod_pos_bound. lia. Qed.
Lemma solve_row_all r s s' : solve_row q gx bm r s = Ok s' -> Forall P (wit s) -> Forall P (wit s').
Proof.
  unfold solve_row. intros H Hs.
  apply bind_ok in H; destruct H as [[[lk lu] s1] [EL H]]; apply lift_ok in EL. apply (scan_all _ _ _ _ _ _ EL) in Hs.
  apply bind_ok in H; destruct H as [[[rk ru] s2] [ER H]]; apply lift_ok in ER. apply (scan_all _ _ _ _ _ _ ER) in Hs.
  apply bind_ok in H; destruct H as [[[ek eu] s3] [EE H]]; apply lift_ok in EE. apply (scan_all _ _ _ _ _ _ EE) in Hs.
  destruct eu as [|]; [|discriminate].
  apply bind_ok in H; destruct H as [[[ok ou] s4] [EO H]]; apply lift_ok in EO. apply (scan_all _ _ _ _ _ _ EO) in Hs.
  destruct (Nat.ltb 1 _); [discriminate|].
  assert (FIN : forall a b x (K : Z -> solved state) v, lift (fdiv q a b) = Ok v -> lift (assign s4 x v) = Ok s' -> Forall P (wit s')).
  { intros a b x K v Ev EA. apply lift_ok in Ev. apply lift_ok in EA. eapply assign_all; [exact EA| |exact Hs]. eapply PC, fdiv_range; eauto. }
  assert (CHK : (let* (lk, lu, s1) := lift (scan bm 0 (rl r) s4) in let* (rk, ru, s2) := lift (scan bm 0 (rr r) s1) in
          let* (ek, eu, s3) := lift (scan bm 0 (re r) s2) in let* (ok, ou, s4) := lift (scan bm 0 (ro r) s3) in
          match lu, ru, ou, eu with
          | [], [], [], [] => let* sr := total q rk s4 in let* sl := total q lk s4 in let* se := total q ek s4 in let* so := total q ok s4 in
              if fadd q (fmul q sr sl) (gx se) =? so then Ok s4 else Err
          | _, _, _, _ => Err
          end) = Ok s' -> Forall P (wit s')).
  { intros K. apply bind_ok in K; destruct K as [[[lk' lu'] s1'] [EL' K]]; apply lift_ok in EL'. apply (scan_all _ _ _ _ _ _ EL') in Hs.
    apply bind_ok in K; destruct K as [[[rk' ru'] s2'] [ER' K]]; apply lift_ok in ER'. apply (scan_all _ _ _ _ _ _ ER') in Hs.
    apply bind_ok in K; destruct K as [[[ek' eu'] s3'] [EE' K]]; apply lift_ok in EE'. apply (scan_all _ _ _ _ _ _ EE') in Hs.
    apply bind_ok in K; destruct K as [[[ok' ou'] s4'] [EO' K]]; apply lift_ok in EO'. apply (scan_all _ _ _ _ _ _ EO') in Hs.
    destruct lu'; [|discriminate]. destruct ru'; [|discriminate]. destruct ou'; [|discriminate]. destruct eu'; [|discriminate].
    do 4 (apply bind_ok in K; destruct K as [? [_ K]]). destruct (_ =? _); [|discriminate]. now injection K as <-. }
  assert (O : match ou with
      | [x] => let* sr := total q rk s4 in let* sl := total q lk s4 in let* se := total q ek s4 in let* so := total q ok s4 in
          let* a := lift (nth_error (ro r) x) in let* v := lift (fdiv q (fsub q (fadd q (fmul q sr sl) (gx se)) so) a) in lift (assign s4 x v)
      | _ => (let* (lk, lu, s1) := lift (scan bm 0 (rl r) s4) in let* (rk, ru, s2) := lift (scan bm 0 (rr r) s1) in
          let* (ek, eu, s3) := lift (scan bm 0 (re r) s2) in let* (ok, ou, s4) := lift (scan bm 0 (ro r) s3) in
          match lu, ru, ou, eu with
          | [], [], [], [] => let* sr := total q rk s4 in let* sl := total q lk s4 in let* se := total q ek s4 in let* so := total q ok s4 in
              if fadd q (fmul q sr sl) (gx se) =? so then Ok s4 else Err
          | _, _, _, _ => Err
          end) end = Ok s' -> Forall P (wit s')).
  { destruct ou as [|x [|? ?]]; try exact CHK. intros K. do 5 (apply bind_ok in K; destruct K as [? [_ K]]). apply bind_ok in K. destruct K as [v [Ev K]]. eapply FIN; eauto. exact (fun _ => Err). }
  assert (R : match ru with
      | [x] => let* sl := total q lk s4 in if sl =? 0 then Err else let* so := total q ok s4 in let* se := total q ek s4 in
          let* d := lift (fdiv q (fsub q so (gx se)) sl) in let* sr := total q rk s4 in
          let* a := lift (nth_error (rr r) x) in let* v := lift (fdiv q (fsub q d sr) a) in lift (assign s4 x v)
      | _ => match ou with
      | [x] => let* sr := total q rk s4 in let* sl := total q lk s4 in let* se := total q ek s4 in let* so := total q ok s4 in
          let* a := lift (nth_error (ro r) x) in let* v := lift (fdiv q (fsub q (fadd q (fmul q sr sl) (gx se)) so) a) in lift (assign s4 x v)
      | _ => (let* (lk, lu, s1) := lift (scan bm 0 (rl r) s4) in let* (rk, ru, s2) := lift (scan bm 0 (rr r) s1) in
          let* (ek, eu, s3) := lift (scan bm 0 (re r) s2) in let* (ok, ou, s4) := lift (scan bm 0 (ro r) s3) in
          match lu, ru, ou, eu with
          | [], [], [], [] => let* sr := total q rk s4 in let* sl := total q lk s4 in let* se := total q ek s4 in let* so := total q ok s4 in
              if fadd q (fmul q sr sl) (gx se) =? so then Ok s4 else Err
          | _, _, _, _ => Err
          end) end end = Ok s' -> Forall P (wit s')).
  { destruct ru as [|x [|? ?]]; try exact O. intros K. apply bind_ok in K; destruct K as [? [_ K]]. destruct (_ =? 0); [discriminate|].
    do 5 (apply bind_ok in K; destruct K as [? [_ K]]). apply bind_ok in K. destruct K as [v [Ev K]]. eapply FIN; eauto. exact (fun _ => Err). }
  destruct lu as [|x [|? ?]]; [apply R; exact H| |apply R; exact H].
  apply bind_ok in H; destruct H as [? [_ H]]. destruct (_ =? 0); [discriminate|].
  do 5 (apply bind_ok in H; destruct H as [? [_ H]]). apply bind_ok in H. destruct H as [v [Ev H]]. eapply FIN; eauto. exact (fun _ => Err).
Qed.
Lemma solve_rows_all rs : forall s s', solve_rows q gx bm rs s = Ok s' -> Forall P (wit s) -> Forall P (wit s').
Proof.
  induction rs as [|r rs IH]; intros s s' H Hs; cbn [solve_rows] in H; [now injection H as <-|].
  apply bind_ok in H. destruct H as [s1 [E H]]. eapply IH; eauto. eapply solve_row_all; eauto.
Qed.
Lemma put_inputs_all m inp : forall s s', put_inputs m s inp = Some s' -> Forall (fun e => P (snd e)) inp -> Forall P (wit s) -> Forall P (wit s').
Proof.
  induction inp as [|[y u] inp IH]; intros s s' E F H; cbn [put_inputs] in E; [now injection E as <-|]. inversion F; subst.
  destruct (assign s (im_idx m y) u) as [s1|] eqn:EA; [|discriminate]. eapply IH; eauto. eapply assign_all; eauto.
Qed.
Lemma put_bits_all father : forall zs pos s s', put_bits s father pos zs = Some s' -> Forall P (wit s) -> Forall P (wit s').
Proof.
  induction zs as [|z zs IH]; intros pos s s' E H; cbn [put_bits] in E; [now injection E as <-|].
  destruct (nth_error (wit s) father) as [v|]; [|discriminate]. destruct (assign s z (bit_of v pos)) as [s1|] eqn:EA; [|discriminate].
  eapply IH; eauto. eapply assign_all; eauto. apply bit_all.
Qed.
Lemma put_splits_all m sp : forall s b s' b', put_splits m s b sp = Some (s', b') -> Forall P (wit s) -> Forall P (wit s').
Proof.
  induction sp as [|[k zs] sp IH]; intros s b s' b' E H; cbn [put_splits] in E; [now injection E as <- _|].
  destruct (nth_error (isset s) (im_idx m k)) as [known|]; [|discriminate].
  destruct (if known then put_bits s (im_idx m k) 0 zs else Some s) as [s1|] eqn:E1; [|discriminate]. eapply IH; eauto.
  destruct known; [eapply put_bits_all; eauto|now injection E1 as <-].
Qed.
Lemma start_all m sp rnd inp s b : start m sp rnd inp = Some (s, b) -> P rnd -> Forall (fun e => P (snd e)) inp -> Forall P (wit s).
Proof.
  unfold start. destruct (assign _ 0 1) as [s0|] eqn:E0; [|discriminate]. intros E Hr HI.
  assert (H0 : Forall P (wit s0)). { eapply assign_all; [exact E0|apply PC; lia|]. cbn [wit]. apply Forall_forall. intros x Hx. apply repeat_spec in Hx. subst. apply PC. lia. }
  destruct (if Nat.eqb _ 0 then _ else _) as [s1|] eqn:E1; [|discriminate].
  assert (H1 : Forall P (wit s1)). { destruct (Nat.eqb _ 0); [now injection E1 as <-|]. eapply assign_all; eauto. }
  destruct (put_inputs m s1 inp) as [s2|] eqn:E2; [|discriminate]. eapply put_splits_all; [exact E|]. eapply put_inputs_all; eauto.
Qed.
End P.
Lemma witness_all q gx (P : Z -> Prop) m sp rs rnd inp W : 1 < q -> (forall v, 0 <= v < q -> P v) -> P rnd -> Forall (fun e => P (snd e)) inp ->
  calculate_witness q gx m sp rs rnd inp = Ok W -> Forall P W.
Proof.
  intros Hq PC Hr HI H. unfold calculate_witness in H. apply bind_ok in H. destruct H as [[s b] [E H]]. apply lift_ok in E.
  apply bind_ok in H. destruct H as [s' [E' H]]. injection H as <-. eapply solve_rows_all; eauto. eapply start_all; eauto.
Qed.
