(** C81: from a program to its constraint system and the witness. *)
Require Import ZArith Znumtheory NArith Lia Bool Permutation Ascii String List.
Require Import Verif.Cong Verif.FqModel Verif.FqProofs Verif.Pocklington Verif.FactorModel Verif.FactorSpec Verif.FactorProofs.
Require Import Verif.ExprModel Verif.ExprSpec Verif.ExprProofs Verif.ExprProofs2 Verif.AvlModel Verif.PolyModel.
Require Import Verif.R1csModel Verif.R1csSpec Verif.R1csProofs Verif.EndProofs.
Require Import Verif.WitnessModel Verif.WitnessSpec Verif.SolveProofs.
Require Import Verif.ParserModel Verif.CircuitModel Verif.LangSpec Verif.LangHeap Verif.LangSym Verif.LangRun Verif.LangBuild Verif.LangField Verif.LangGood.
Require Import Verif.PropsFactor Verif.PropsExpr Verif.PropsR1cs Verif.PropsEnd Verif.PropsSolve Verif.PropsLang Verif.GoodSystem.
Import ListNotations.
Local Open Scope string_scope.
Local Open Scope list_scope.
Local Open Scope Z_scope.

(** The program [fs] was built into [p] and executed; main has the inputs [ins]. *)
Definition compiles (sort : factors -> factors) (hash : string -> Z) (q : Z) (fs : defs) (ins : list string) (p : program) (r : ret) (st : state) : Prop :=
  prog_ok fs /\ (exists body, find_at "main" fs = Some (Fun ins body)) /\
  (exists cs n n', enc_prog fs cs /\ build sort hash q n cs = Done p /\ run_program sort hash q n' p = Done (r, st)) /\
  no_collision (strace st) /\ Forall distinct_names (sstored st).
(** Public names are declared once and look like names. *)
Definition publics_ok (p : program) : Prop := NoDup (ppublic p) /\ Forall (fun x => x = "1" \/ name_ok x) (ppublic p).

Lemma build_one sort hash q n cs p : build sort hash q n cs = Done p -> nth_error (ppublic p) 0 = Some "1".
Proof.
  unfold build. intros E. apply bind_inv in E. destruct E as (pub & _ & E). apply bind_inv in E. destruct E as (h & _ & E).
  apply bind_inv in E. destruct E as (g & _ & E). now injection E as <-.
Qed.
Lemma length_substring : forall n s, (n <= String.length s)%nat -> String.length (substring 0 n s) = n.
Proof.
  induction n as [|n IH]; intros s H; destruct s as [|c s]; cbn in *; auto; try lia. rewrite IH; lia.
Qed.
Lemma prefix16_length s i : prefix16 s = Some i -> String.length i = 16%nat.
Proof. unfold prefix16. destruct (Nat.ltb_spec (String.length s) 16); [discriminate|]. intros [= <-]. now apply length_substring. Qed.
Lemma hashed_length c x : hashed c -> String.length x <> 16%nat -> ~ In x (known c).
Proof. intros H N I. apply N. unfold hashed in H. rewrite Forall_forall in H. destruct (H x I) as [z Hz]. eapply prefix16_length; eauto. Qed.
Lemma name_one x : name_ok x -> x <> "1".
Proof. intros [H _] ->. discriminate. Qed.
Lemma program_means_ext q gx fs ins body w w' v asked : find_at "main" fs = Some (Fun ins body) -> (forall x, In x ins -> w x = w' x) ->
  program_means q gx fs w v asked -> program_means q gx fs w' v asked.
Proof.
  intros Em H (ins' & body' & Em' & M). rewrite Em in Em'. injection Em' as <- <-. exists ins, body. split; auto.
  replace (map (fun x => (x, Wire (w' x))) ins) with (map (fun x => (x, Wire (w x))) ins); auto. apply map_ext_in. intros x Hx. now rewrite H.
Qed.

(** The public names of the built program are those of the source. *)
Section Publics.
Variable sort : factors -> factors.
Variable hash : string -> Z.
Variable q : Z.
Let pn := public_names sort hash q.
Lemma pn_skip n c cs : ttyp (output c) <> TPublic -> pn n (c :: cs) = pn n cs.
Proof. intros N. unfold pn. cbn [public_names]. destruct (ttyp (output c)) eqn:E; auto. now destruct N. Qed.
Definition named (l : list string) (r : res (list string)) : res (list string) := l' <- r ;; Done (l ++ l').
Lemma named_app a b r : named a (named b r) = named (a ++ b) r.
Proof. destruct r; cbn; auto. now rewrite app_assoc. Qed.
Lemma append_nil s : (s ++ "")%string = s.
Proof. induction s; cbn; congruence. Qed.
Lemma pn_public n x cs : pn n (Con (Tok TPublic x) [] :: cs) = named [x] (pn n cs).
Proof. unfold pn. cbn [public_names output ttyp ttype_eqb]. unfold resolve_name. cbn [inputs index_names bind output ident]. rewrite append_nil. reflexivity. Qed.
Lemma named_nil r : named [] r = r.
Proof. now destruct r. Qed.
Lemma elements_publics x es : forall i, flat_map publics_in (elements x i es) = [].
Proof. induction es as [|e es IH]; intros i; cbn [elements flat_map]; [reflexivity|apply IH]. Qed.
Lemma enc_publics n :
  (forall t c, enc_stmt t c -> forall cs, pn n (c ++ cs) = named (publics_in t) (pn n cs)) /\
  (forall b c, enc_block b c -> forall cs, pn n (c ++ cs) = named (flat_map publics_in b) (pn n cs)).
Proof.
  apply enc_blocks_ind; intros; cbn [publics_in flat_map app]; rewrite ?named_nil; auto.
  - rewrite pn_skip by discriminate. rewrite <- app_assoc, H2. cbn [app]. f_equal. apply pn_skip. destruct H3 as [-> _]. discriminate.
  - rewrite pn_skip by discriminate. rewrite <- app_assoc, H1. cbn [app]. f_equal. rewrite pn_skip by (destruct H2 as [-> _]; discriminate). apply pn_skip. destruct H3 as [-> _]. discriminate.
  - apply pn_public.
  - now rewrite <- app_assoc, H0, H2, named_app.
  - rewrite pn_skip by discriminate. rewrite H2. unfold array. cbn [app flat_map publics_in]. now rewrite flat_map_app, elements_publics.
Qed.
Lemma prog_publics n fs cs : enc_prog fs cs -> pn n cs = Done (publics fs).
Proof.
  induction 1 as [|f ps body fs cs fin cs' E1 [F _] E2 IH]; [reflexivity|]. rewrite pn_skip by discriminate. rewrite (proj2 (enc_publics n) body cs E1).
  rewrite pn_skip by (rewrite F; discriminate). rewrite IH. reflexivity.
Qed.
Lemma build_publics n fs cs p : enc_prog fs cs -> build sort hash q n cs = Done p -> ppublic p = "1" :: publics fs.
Proof.
  intros En. unfold build. assert (E := prog_publics n fs cs En). unfold pn in E. rewrite E. cbn [bind]. intros B. apply bind_inv in B. destruct B as (h & _ & B).
  apply bind_inv in B. destruct B as (g & _ & B). now injection B as <-.
Qed.
End Publics.
Theorem C81_publics : forall sort hash q fs ins p r st, compiles sort hash q fs ins p r st -> ppublic p = "1" :: publics fs /\
  (publics_ok p <-> NoDup (publics fs) /\ Forall name_ok (publics fs)).
Proof.
  intros sort hash q fs ins p r st (_ & _ & (cs & n & n' & En & Eb & _) & _). assert (E := build_publics sort hash q n fs cs p En Eb). split; auto.
  unfold publics_ok. rewrite E. split.
  - intros [N F]. inversion N; subst. inversion F; subst. split; auto. apply Forall_forall. intros x I. match goal with K : Forall _ (publics fs) |- _ => rewrite Forall_forall in K; destruct (K x I) as [->|]; auto end.
    contradiction.
  - intros [N F]. split.
    + constructor; auto. intros I. rewrite Forall_forall in F. now destruct (name_one "1" (F _ I)).
    + constructor; auto. eapply Forall_impl; [|exact F]. auto.
Qed.
Print Assumptions C81_publics.

Section P.
Variable sort : factors -> factors.
Hypothesis sort_perm : forall l, Permutation (sort l) l.
Variable hash : string -> Z.
Variable q : Z.
Hypothesis Hq : prime q.
Variable gx : Z -> Z.
Variables (fs : defs) (ins : list string) (p : program) (r : ret) (st : state).
Hypothesis HC : compiles sort hash q fs ins p r st.
Hypothesis HP : publics_ok p.

Let V (x : string) : Prop := In x ins.
Lemma prog_run : exists body, find_at "main" fs = Some (Fun ins body) /\ Forall name_ok ins /\
  mb (sym sort hash q) fs (map (fun x => (x, argument x)) ins) (Coll [] [], []) body (opt (strip (rvals r))) (scoll st, strace st) /\
  hashed (scoll st) /\ (strip (rvals r) = [] \/ good q (strip (rvals r))).
Proof.
  destruct HC as (Pk & (body & Em) & (cs & n & n' & En & Eb & Er) & NC & Dn).
  destruct (runs_symbolic sort hash q fs Pk cs n n' p r st En Eb Er Dn) as (ins' & body' & Em' & M' & R & _).
  rewrite Em in Em'. injection Em' as <- <-. exists body. split; auto. split; [eapply main_params; eauto|]. split; auto. split; auto.
  apply (main_hashed sort hash q fs _ _ _ _ _ M'). constructor.
Qed.
Lemma prog_one : nth_error (ppublic p) 0 = Some "1".
Proof. destruct HC as (_ & _ & (cs & n & n' & En & Eb & Er) & _). eapply build_one; eauto. Qed.
Lemma prog_declared x : V x -> In x (ppublic p ++ ins) /\ x <> "1".
Proof.
  intros Hx. destruct prog_run as (body & _ & Np & _). rewrite Forall_forall in Np. split; [apply in_app_iff; now right|]. now apply name_one, Np.
Qed.
Lemma prog_apart x : In x (ppublic p ++ ins) -> ~ In x (known (scoll st)).
Proof.
  destruct prog_run as (body & _ & Np & _ & Hh & _). intros Hx. assert (X : x = "1" \/ name_ok x).
  { apply in_app_iff in Hx. destruct HP as [_ P2]. rewrite Forall_forall in *. destruct Hx as [Hx|Hx]; auto. }
  destruct X as [->|X]; [now apply hashed_length|]. intros K. now apply (hashed_apart _ Hh x X).
Qed.
Lemma prog_nice : Good V (scoll st) (strace st) /\ Ordered V (gates (scoll st)) /\ Forall (fac_in (Ko V (scoll st))) (strip (rvals r)).
Proof.
  destruct prog_run as (body & _ & Np & M & Hh & _). assert (V1 : ~ V "1") by (intros X; now apply (prog_declared _ X)).
  destruct (main_nice sort sort_perm hash q Hq gx fs V _ _ _ _ _ M) as ([A B] & _ & C).
  - clear -Np V1. assert (G : forall l, (forall x, In x l -> V x) -> Forall name_ok l -> all_env (vin q V (Coll [] [], [])) (map (fun x => (x, argument x)) l)); [|apply G; auto].
    induction l as [|x l IH]; intros H N; constructor; [|apply IH; [intros; apply H; now right|now inversion N]].
    inversion N; subst. assert (V x) by (apply H; now left). split; [now apply argument_good|]. cbn [snd]. change (argument x) with (wire x 1). split; [apply wire_tidy; intros ->; auto|].
    apply wire_in. now left.
  - split; [apply Good_empty|apply Ordered_nil].
  - destruct HC as (_ & _ & _ & NC & _). split; [exact NC|]. apply prog_apart. apply in_app_iff. left. assert (X := prog_one). destruct (ppublic p); [discriminate|]. injection X as ->. now left.
  - split; auto. split; auto. destruct (strip (rvals r)); [constructor|]. apply C.
Qed.
Lemma prog_rand : ~ In rand_in (wire_names (ppublic p) ins (gates (scoll st)) false).
Proof.
  destruct prog_run as (body & _ & Np & _ & Hh & _). unfold wire_names. rewrite !in_app_iff. cbn [In]. intros [X|[X|[X|[]]]].
  - destruct HP as [_ P2]. rewrite Forall_forall in P2. destruct (P2 _ X) as [C|[C _]]; discriminate.
  - apply fresh_sub in X. rewrite Forall_forall in Np. destruct (Np _ X) as [C _]. discriminate.
  - apply (hashed_length (scoll st) rand_in Hh); [discriminate|]. destruct prog_nice as [(_ & _ & HM & _) _]. apply in_rev. rewrite <- HM. now apply out_names_incl.
Qed.
Lemma prog_values w v asked : all_hold q gx w (gates (scoll st)) -> program_means q gx fs w v asked ->
  match v with Some u => strip (rvals r) <> [] /\ lin w (strip (rvals r)) ==[q] num_of u | None => strip (rvals r) = [] end /\
  Forall (fun e => fst e ==[q] snd e) asked /\ Forall (div_ok q w) (gates (scoll st)).
Proof.
  destruct prog_run as (body & Em & Np & M & Hh & _). intros HA (ins' & body' & Em' & Mf). rewrite Em in Em'. injection Em' as <- <-.
  destruct HC as (_ & _ & _ & NC & _).
  destruct (main_sound sort sort_perm hash q Hq gx fs w _ _ _ _ _ M (map (fun x => (x, Wire (w x))) ins) [] v asked) as [A B]; [| | | |exact Mf|].
  - clear -Np. induction Np; constructor; auto. now apply argument_good.
  - exact start_inv.
  - split; auto.
  - clear. induction ins as [|x l IH]; constructor; auto. split; [reflexivity|]. split; [exact I|]. cbn [snd argument num_of]. change (argument x) with (wire x 1). rewrite lin_wire, Z.mul_1_l. reflexivity.
  - split; [|apply B; split; constructor]. destruct (strip (rvals r)) as [|x f]; destruct v as [v|]; cbn in A; try contradiction; auto. destruct A as [_ A]. split; [discriminate|]. now symmetry.
Qed.
Lemma prog_wire w u : all_hold q gx w (gates (scoll st)) -> strip (rvals r) <> [] -> lin w (strip (rvals r)) ==[q] u ->
  is_single_number (strip (rvals r)) = true \/ exists x, Ko V (scoll st) x /\ w x ==[q] u.
Proof.
  intros HA Ne Hu. destruct prog_run as (body & Em & Np & M & Hh & _). destruct prog_nice as (HG & _ & HK). destruct HC as (_ & _ & _ & NC & _).
  destruct (strip (rvals r)) as [|y f] eqn:Ef; [contradiction|].
  assert (Gm : all_env (good q) (map (fun x => (x, argument x)) ins)) by (clear -Np; induction Np; constructor; auto; now apply argument_good).
  destruct (main_result sort sort_perm hash q Hq gx fs _ _ _ _ _ M Gm start_inv (y :: f) eq_refl Ne) as [S|[(x & Ex & Mx & Nx)|(i & Ig & Ik)]]; auto; right.
  - injection Ex as -> ->. exists (ident (ftok x)). split; [exact (Forall_inv HK Nx)|]. rewrite <- Hu. cbn [lin]. rewrite fac_val_wire, Mx by auto. apply cong_eq. ring.
  - cbn [fst snd] in *. exists i. destruct (sum_gate_ok q gx (y :: f) i w) as (Wg & Fg & Hg).
    assert (Hh' := Inv_holds q gx w (scoll st) (strace st) _ (proj1 HG) NC HA Ig). rewrite Fg in Hh'. apply Hg in Hh'. split; [|now rewrite <- Hh'].
    right. destruct HG as [(_ & gs & HG0 & HI0 & HK0 & _) [HT _]]. apply HK0 in Ik. apply in_map_iff in Ik. destruct Ik as [g0 [E0 H0]].
    assert (S : same_gate g0 (sum_gate (y :: f) i)) by (apply NC; [auto|exact Ig|exact E0]).
    rewrite <- E0, <- finish_gid. apply out_names_in; [rewrite HG0; now apply in_map|].
    rewrite finish_gnonew. assert (X := proj1 (Forall_forall _ _) HT g0 (HI0 _ H0)). cbn in X. rewrite X, (proj1 S). reflexivity.
Qed.
End P.

(** The dense and the sparse system exist, with one row per gate. *)
Theorem C81_generated : forall sort hash q fs ins p r st, (forall l, Permutation (sort l) l) -> prime q ->
  compiles sort hash q fs ins p r st -> publics_ok p ->
  (exists s, gates_to_r1cs (ppublic p) ins (gates (scoll st)) false = Some s /\ List.length (rows s) = List.length (gates (scoll st))) /\
  (exists s, gates_to_sparse_r1cs q (ppublic p) ins (gates (scoll st)) false = Some s /\ List.length (rows s) = List.length (gates (scoll st))).
Proof.
  intros sort hash q fs ins p r st Hs Hq HC HP.
  destruct (prog_nice sort Hs hash q Hq (fun _ => 0) fs ins p r st HC HP) as (HG & _).
  apply (sys_exists q (fun x => In x ins) (scoll st) (strace st) (ppublic p) ins HG (proj1 HP) (prog_one _ _ _ _ _ _ _ _ HC)
    (prog_declared _ _ _ _ _ _ _ _ HC) (prog_apart _ _ _ _ _ _ _ _ HC HP)).
Qed.
Print Assumptions C81_generated.

(** A satisfying witness is a run of the program on the inputs it holds: the equalities asked for hold and
    the result is on a wire, unless it is a number known at compile time. *)
Theorem C81_sound : forall sort hash q gx fs ins p r st s, (forall l, Permutation (sort l) l) -> prime q -> gx 0 ==[q] 0 ->
  compiles sort hash q fs ins p r st -> publics_ok p -> gates_to_r1cs (ppublic p) ins (gates (scoll st)) false = Some s ->
  forall W, List.length W = List.length (index_map s) -> nth 0 W 0 = 1 -> Forall (row_ok q gx W) (rows s) ->
  forall v asked, program_means q gx fs (read (index_map s) W) v asked ->
  Forall (fun e => fst e ==[q] snd e) asked /\
  match v with
  | Some u => lin (read (index_map s) W) (strip (rvals r)) ==[q] num_of u /\
              (is_single_number (strip (rvals r)) = true \/ exists i, (i < List.length W)%nat /\ nth i W 0 ==[q] num_of u)
  | None => strip (rvals r) = []
  end.
Proof.
  intros sort hash q gx fs ins p r st s Hs Hq G0 HC HP E W L W0 HW v asked M.
  destruct (prog_nice sort Hs hash q Hq (fun _ => 0) fs ins p r st HC HP) as (HG & _).
  assert (D2 := prog_one _ _ _ _ _ _ _ _ HC). assert (D3 := prog_declared _ _ _ _ _ _ _ _ HC). assert (D4 := prog_apart _ _ _ _ _ _ _ _ HC HP).
  assert (HA := proj1 (sys_holds q Hq gx G0 _ _ _ (ppublic p) ins HG (proj1 HP) D2 D3 D4 s E W L W0) HW).
  destruct (prog_values sort Hs hash q Hq gx fs ins p r st HC _ _ _ HA M) as (A & B & _). split; auto. destruct v as [u|]; auto. destruct A as [Ne A]. split; auto.
  destruct (prog_wire sort Hs hash q Hq gx fs ins p r st HC HP _ _ HA Ne A) as [S|(x & Kx & Wx)]; auto. right.
  destruct (sys_wire q (fun x => In x ins) (scoll st) (ppublic p) ins (proj1 HP) D2 D3 s E W x L Kx) as (i & Li & Ni). exists i. split; auto. now rewrite Ni.
Qed.
Print Assumptions C81_sound.

(** Inputs for which the program has a meaning and its equalities hold extend to a satisfying witness. *)
Theorem C81_complete : forall sort hash q gx fs ins p r st s, (forall l, Permutation (sort l) l) -> prime q -> gx 0 ==[q] 0 ->
  compiles sort hash q fs ins p r st -> publics_ok p -> gates_to_r1cs (ppublic p) ins (gates (scoll st)) false = Some s ->
  forall w v asked, w "1" = 1 -> program_means q gx fs w v asked -> Forall (fun e => fst e ==[q] snd e) asked ->
  exists W, List.length W = List.length (index_map s) /\ nth 0 W 0 = 1 /\
    (forall x, In x (ppublic p ++ ins) -> read (index_map s) W x = w x) /\ Forall (row_ok q gx W) (rows s).
Proof.
  intros sort hash q gx fs ins p r st s Hs Hq G0 HC HP E w v asked W1 M A.
  destruct (prog_nice sort Hs hash q Hq (fun _ => 0) fs ins p r st HC HP) as (HG & _).
  assert (D2 := prog_one _ _ _ _ _ _ _ _ HC). assert (D3 := prog_declared _ _ _ _ _ _ _ _ HC). assert (D4 := prog_apart _ _ _ _ _ _ _ _ HC HP).
  destruct (prog_run _ _ _ _ _ _ _ _ HC) as (_ & _ & Np & _). rewrite Forall_forall in Np.
  destruct HC as (Pk & _ & (cs & n & n' & En & Eb & Er) & NC & Dn).
  destruct (C75_complete sort hash q gx fs cs n n' p r st w v asked Hs Hq Pk En Eb Er NC Dn M A) as (w' & Ew & HA & _).
  destruct (sys_build q Hq gx G0 (fun x => In x ins) (scoll st) (strace st) (ppublic p) ins HG (proj1 HP) D2 D3 D4 s E w w' W1 HA) as (W & X1 & X2 & X3 & _ & X4).
  { intros x Hx. apply Ew. now apply Np. }
  exists W. auto.
Qed.
Print Assumptions C81_complete.

(** The dense solver accepts inputs for which the program has a meaning exactly if its equalities hold;
    what it returns satisfies the system, keeps the inputs and carries the result. *)
Theorem C81_solver : forall sort hash q gx fs ins p r st s, (forall l, Permutation (sort l) l) -> prime q -> gx 0 ==[q] 0 ->
  compiles sort hash q fs ins p r st -> publics_ok p -> gates_to_r1cs (ppublic p) ins (gates (scoll st)) false = Some s ->
  forall w v asked rnd inp, program_means q gx fs w v asked ->
  supplied (ppublic p) ins inp -> (forall x a, In (x, a) inp -> a = w x) ->
  ((exists W, calculate_witness q gx (index_map s) (split_map s) (rows s) rnd inp = Ok W) <-> Forall (fun e => fst e ==[q] snd e) asked) /\
  forall W, calculate_witness q gx (index_map s) (split_map s) (rows s) rnd inp = Ok W ->
    Forall (row_ok q gx W) (rows s) /\ nth 0 W 0 = 1 /\
    (forall x, In x (ppublic p ++ ins) -> x <> "1" -> read (index_map s) W x = w x) /\
    match v with
    | Some u => is_single_number (strip (rvals r)) = true /\ lin w (strip (rvals r)) ==[q] num_of u \/
                exists i, (i < List.length W)%nat /\ nth i W 0 ==[q] num_of u
    | None => strip (rvals r) = []
    end.
Proof.
  intros sort hash q gx fs ins p r st s Hs Hq G0 HC HP E w v asked rnd inp M SI IV.
  destruct (prog_nice sort Hs hash q Hq (fun _ => 0) fs ins p r st HC HP) as (HG & HO & _).
  assert (D2 := prog_one _ _ _ _ _ _ _ _ HC). assert (D3 := prog_declared _ _ _ _ _ _ _ _ HC). assert (D4 := prog_apart _ _ _ _ _ _ _ _ HC HP).
  assert (Hr := prog_rand sort Hs hash q Hq (fun _ => 0) fs ins p r st HC HP).
  destruct (prog_run _ _ _ _ _ _ _ _ HC) as (body & Em & Np & _). rewrite Forall_forall in Np.
  assert (OK : forall W, calculate_witness q gx (index_map s) (split_map s) (rows s) rnd inp = Ok W ->
    Forall (row_ok q gx W) (rows s) /\ nth 0 W 0 = 1 /\ List.length W = List.length (index_map s) /\
    (forall x, In x (ppublic p ++ ins) -> x <> "1" -> read (index_map s) W x = w x)).
  { intros W HW. destruct (sys_solved q Hq gx (fun x => In x ins) (scoll st) (strace st) (ppublic p) ins HG (proj1 HP) D2 D3 D4 s E rnd inp W SI HW) as (A1 & A2 & A3 & A4).
    split; auto. split; auto. split; auto. intros x Hx Nx. destruct SI as [_ S2]. assert (Hi := proj2 (S2 x) (conj Hx Nx)). apply in_map_iff in Hi. destruct Hi as [[y a] [Ey Hy]]. cbn in Ey. subst y.
    rewrite (A4 x a Hy). now apply IV. }
  assert (MW : forall W, (forall x, In x (ppublic p ++ ins) -> x <> "1" -> read (index_map s) W x = w x) -> program_means q gx fs (read (index_map s) W) v asked).
  { intros W HW. apply (program_means_ext q gx fs ins body w); auto. intros x Hx. symmetry. apply HW; [apply in_app_iff; now right|]. now apply name_one, Np. }
  split; [split|].
  - intros [W HW]. destruct (OK W HW) as (A1 & A2 & A3 & A4).
    now apply (C81_sound sort hash q gx fs ins p r st s Hs Hq G0 HC HP E W A3 A2 A1 v asked (MW W A4)).
  - intros A. set (w1 := fun x => if String.eqb x "1" then 1 else w x).
    assert (M1 : program_means q gx fs w1 v asked).
    { apply (program_means_ext q gx fs ins body w); auto. intros x Hx. unfold w1. destruct (String.eqb_spec x "1"); auto. now destruct (name_one x (Np _ Hx)). }
    destruct (C81_complete sort hash q gx fs ins p r st s Hs Hq G0 HC HP E w1 v asked eq_refl M1 A) as (W & L & W0 & WI & HW).
    assert (WI' : forall x, In x (ppublic p ++ ins) -> x <> "1" -> read (index_map s) W x = w x).
    { intros x Hx Nx. rewrite WI by auto. unfold w1. now destruct (String.eqb_spec x "1"). }
    assert (HA := proj1 (sys_holds q Hq gx G0 _ _ _ (ppublic p) ins HG (proj1 HP) D2 D3 D4 s E W L W0) HW).
    destruct (prog_values sort Hs hash q Hq gx fs ins p r st HC _ _ _ HA (MW W WI')) as (_ & _ & DV).
    destruct (sys_finds q Hq gx G0 (fun x => In x ins) (scoll st) (strace st) (ppublic p) ins HG (proj1 HP) D2 D3 D4 s E HO Hr W L W0 HW DV rnd inp SI) as (W' & HW' & _); eauto.
    intros x a Hx. destruct SI as [_ S2]. assert (Ix : In x (ppublic p ++ ins) /\ x <> "1"). { apply S2. change x with (fst (x, a)). now apply in_map. }
    rewrite WI' by apply Ix. rewrite (IV x a Hx). reflexivity.
  - intros W HW. destruct (OK W HW) as (A1 & A2 & A3 & A4). split; auto. split; auto. split; auto.
    destruct (C81_sound sort hash q gx fs ins p r st s Hs Hq G0 HC HP E W A3 A2 A1 v asked (MW W A4)) as (_ & B). destruct v as [u|]; auto. destruct B as [B1 [B2|B2]]; auto. left. split; auto.
    rewrite <- B1. destruct (single_number_inv _ B2) as (x & -> & Nx). cbn [lin]. unfold fac_val. unfold is_number in Nx. destruct (ttyp (ftok x)); try discriminate. reflexivity.
Qed.
Print Assumptions C81_solver.

(** A program with a public input, a loop known at compile time, a call, an equality and a division. *)
Definition C81_text := "
func main(x,y){
	public{y}
	var k = 1
	for( k<4 ; k=k+k){
		x = sq(x) + y
	}
	equal(x*y,k)
	return x/y
}
func sq(a){
	return a*a
}
".
Definition C81_defs : defs :=
  [("main", Fun ["x"; "y"]
     [Public "y"; Decl "k" (Num "1");
      For (Cmp "<" (Var "k") (Num "4")) "k" (Bin "+" (Var "k") (Var "k"))
        [Assign "x" (Bin "+" (Call "sq" [Var "x"]) (Var "y"))];
      Equal (Bin "*" (Var "x") (Var "y")) (Var "k");
      Return (Bin "/" (Var "x") (Var "y"))]);
   ("sq", Fun ["a"] [Return (Bin "*" (Var "a") (Var "a"))])].
Lemma C81_encoded : enc_prog C81_defs (tree_of 1000 C81_text).
Proof.
  remember (tree_of 1000 C81_text) as cs eqn:E. vm_compute in E. subst cs. unfold C81_defs.
  assert (En : forall t s, ends t (Con (Tok t s) [])) by (split; reflexivity).
  apply (enc_fun "main" ["x"; "y"] _ _ [_; _; _; _; _; _; _] _ _); [|apply En|].
  - apply (enc_cons _ _ [_] _); [apply enc_public|]. apply (enc_cons _ _ [_] _); [apply enc_decl; enc_exp|].
    apply (enc_cons _ _ [_; _; _] _); [apply (enc_for _ _ _ _ _ _ _ _ [_] _); [apply enc_cmp; enc_exp|enc_exp| |apply En]|].
    { apply (enc_cons _ _ [_] _); [apply enc_assign; enc_exp|apply enc_nil]. }
    apply (enc_cons _ _ [_] _); [apply enc_equal; enc_exp|]. apply (enc_cons _ _ [_] _); [apply enc_return; enc_exp|apply enc_nil].
  - apply (enc_fun "sq" ["a"] _ _ [_] _ _); [|apply En|apply enc_none]. apply (enc_cons _ _ [_] _); [apply enc_return; enc_exp|apply enc_nil].
Qed.
Lemma C81_ok : prog_ok C81_defs.
Proof.
  split; [repeat (constructor; [apply absent; reflexivity|]); constructor|].
  assert (C : callable C81_defs "sq" 1) by (split; [discriminate|eexists; split; reflexivity]).
  assert (G : gives C81_defs "sq") by (eexists; split; [reflexivity|]; eexists; left; reflexivity).
  constructor; [|constructor; [|constructor]]; unfold fun_ok; cbn [fst snd fparams fbody]; heading; cbn [block_ok stmt_ok exp_ok app]; unfold new_ok, name_ok, cond_ok; cbn [cleft cright exp_ok]; scope.
Qed.
(** With x = 10 and y = 5 the loop takes x through 105 = 4 to 21; 21 * 5 = 105 = 4 as asked, and 21 / 5 = 85. *)
Definition C81_w (x : string) : Z := if String.eqb x "x" then 10%Z else if String.eqb x "y" then 5%Z else 0%Z.
Lemma C81_sq gx s a z : z ==[101] a * a -> call (field_values 101 gx) C81_defs s "sq" [Wire a] (Some (Wire z)) s.
Proof.
  intros H. eapply call_fun; [reflexivity|reflexivity|]. eapply xb_return, xs_return. eapply ev_bin; [eapply ev_var; reflexivity|eapply ev_var; reflexivity|].
  split; [|reflexivity]. apply value_left. now apply result_mul.
Qed.
Lemma C81_means gx : program_means 101 gx C81_defs C81_w (Some (Wire 85)) [(4, 4)]%Z.
Proof.
  eexists _, _. split; [reflexivity|].
  assert (Step : forall x k (s0 : list (Z * Z)) z z', z ==[101] x * x -> z' ==[101] z + 5 ->
    xb (field_values 101 gx) C81_defs [("x", Wire x); ("y", Wire 5); ("k", Known k)] s0
      [Assign "x" (Bin "+" (Call "sq" [Var "x"]) (Var "y"))] [("x", Wire z'); ("y", Wire 5); ("k", Known k)] None s0).
  { intros x k s0 z z' E1 E2. eapply xb_cons; [|apply xb_nil]. change [("x", Wire z'); ("y", Wire 5); ("k", Known k)] with (put_at "x" (Wire z') [("x", Wire x); ("y", Wire 5); ("k", Known k)]).
    apply xs_assign; [|discriminate]. eapply ev_bin.
    - eapply ev_call; [eapply evs_cons; [eapply ev_var; reflexivity|apply evs_nil]|]. apply (C81_sq gx s0 x z E1).
    - eapply ev_var; reflexivity.
    - split; [|reflexivity]. apply value_left. now apply result_add. }
  eapply mb_cons; [apply xs_public|reflexivity|]. eapply mb_cons; [apply xs_decl; field_ev|reflexivity|].
  change (map (fun x => (x, Wire (C81_w x))) ["x"; "y"]) with [("x", Wire 10); ("y", Wire 5)]. cbn [app].
  eapply mb_cons; [|reflexivity|].
  { eapply xs_for; [eapply test_cmp; [field_ev|field_ev|apply cmp_lt]|apply (Step 10%Z 1%Z [] 100%Z 4%Z); cong| |discriminate|].
    { eapply ev_bin; [field_ev|field_ev|]. split; [apply value_known with (z := 2%Z); [lia|apply result_add; cong]|reflexivity]. }
    eapply xs_for; [eapply test_cmp; [field_ev|field_ev|apply cmp_lt]|apply (Step 4%Z 2%Z [] 16%Z 21%Z); cong| |discriminate|].
    { eapply ev_bin; [field_ev|field_ev|]. split; [apply value_known with (z := 4%Z); [lia|apply result_add; cong]|reflexivity]. }
    apply xs_for_end. eapply test_cmp; [field_ev|field_ev|apply cmp_lt]. }
  eapply mb_cons; [|reflexivity|].
  { eapply xs_equal; [|field_ev|reflexivity]. eapply ev_bin; [field_ev|field_ev|]. split; [apply value_left with (z := 4%Z), result_mul; cong|reflexivity]. }
  eapply mb_return; [|reflexivity]. apply xs_return. eapply ev_bin; [field_ev|field_ev|]. split; [apply value_left with (z := 85%Z), result_div; [|cong]|reflexivity].
  intros [k Hk]. change (5 - 0 = k * 101)%Z in Hk. lia.
Qed.
Lemma C81_checked : checked (run_all sort_factors toy_hash 101 1000 (tree_of 1000 C81_text)) 5 = true.
Proof. vm_compute. reflexivity. Qed.
(** The public names of a built program and what the solver says to the given inputs. *)
Definition answers (gx : Z -> Z) (o : option (program * ret * state)) (ins : list string) (inp : list (string * Z)) : option (list string * solved (list Z)) :=
  match o with
  | Some (p, _, st) => match gates_to_r1cs (ppublic p) ins (gates (scoll st)) false with
                       | Some s => Some (ppublic p, calculate_witness 101 gx (index_map s) (split_map s) (rows s) 0 inp)
                       | None => None
                       end
  | None => None
  end.
Lemma C81_accepted : answers (fun _ => 0) (run_all sort_factors toy_hash 101 1000 (tree_of 1000 C81_text)) ["x"; "y"] [("x", 10); ("y", 5)] = Some (["1"; "y"], Ok [1; 5; 10; 100; 16; 4; 85]).
Proof. vm_compute. reflexivity. Qed.
Lemma C81_rejected : answers (fun _ => 0) (run_all sort_factors toy_hash 101 1000 (tree_of 1000 C81_text)) ["x"; "y"] [("x", 11); ("y", 5)] = Some (["1"; "y"], Err).
Proof. vm_compute. reflexivity. Qed.
Lemma answers_inv gx p r st ins inp pub a : answers gx (Some (p, r, st)) ins inp = Some (pub, a) -> ppublic p = pub /\ exists s, gates_to_r1cs (ppublic p) ins (gates (scoll st)) false = Some s /\
  calculate_witness 101 gx (index_map s) (split_map s) (rows s) 0 inp = a.
Proof.
  unfold answers. destruct (gates_to_r1cs (ppublic p) ins (gates (scoll st)) false) as [s|]; [|discriminate]. intros [= <- <-]. eauto.
Qed.
Example C81_case : exists p r st s, compiles sort_factors toy_hash 101 C81_defs ["x"; "y"] p r st /\ publics_ok p /\ ppublic p = ["1"; "y"] /\
  compile_text sort_factors toy_hash 101 1000 C81_text = Done (r, st) /\
  program_means 101 (fun _ => 0%Z) C81_defs C81_w (Some (Wire 85)) [(4, 4)]%Z /\
  gates_to_r1cs (ppublic p) ["x"; "y"] (gates (scoll st)) false = Some s /\ supplied (ppublic p) ["x"; "y"] [("x", 10); ("y", 5)] /\
  calculate_witness 101 (fun _ => 0%Z) (index_map s) (split_map s) (rows s) 0 [("x", 10); ("y", 5)] = Ok [1; 5; 10; 100; 16; 4; 85] /\
  calculate_witness 101 (fun _ => 0%Z) (index_map s) (split_map s) (rows s) 0 [("x", 11); ("y", 5)] = Err.
Proof.
  destruct (checked_ok _ _ C81_checked) as (p & r & st & E & H1 & D & H3). assert (A := C81_accepted). assert (B := C81_rejected). rewrite E in A, B.
  apply answers_inv in A. destruct A as (P & s & Es & A). apply answers_inv in B. destruct B as (_ & s' & Es' & B). rewrite Es in Es'. injection Es' as <-.
  apply run_all_inv in E. destruct E as [Eb Er].
  exists p, r, st, s. split; [|split; [|split; [exact P|]; split; [|split; [exact (C81_means _)|]; split; [exact Es|]; split; [|split; [exact A|exact B]]]]].
  - split; [exact C81_ok|]. split; [eexists; reflexivity|]. split; [|split; [exact H1|exact D]]. exists (tree_of 1000 C81_text), 1000%nat, 1000%nat. split; [exact C81_encoded|]. split; [exact Eb|exact Er].
  - unfold publics_ok. rewrite P. split; [repeat (constructor; [apply absent; reflexivity|]); constructor|]. constructor; [now left|]. constructor; [right; split; [reflexivity|apply absent; reflexivity]|constructor].
  - refine (tree_text _ _ _ _ _ _ _ _ _ Eb Er). intros T. assert (X := C81_encoded). rewrite T in X. inversion X.
  - rewrite P. split; [repeat (constructor; [apply absent; reflexivity|]); constructor|]. intros x. cbn. split.
    + intros [<-|[<-|[]]]; split; auto; discriminate.
    + intros [[<-|[<-|[<-|[<-|[]]]]] N]; auto; now destruct N.
Qed.
