(** Properties of the front end as a whole: which programs it accepts, and that compiling comes to an end. *)
Require Import ZArith Znumtheory Lia Bool Ascii String List Permutation.
Require Import Verif.Cong Verif.SparseModel Verif.FqModel Verif.FactorModel Verif.FactorSpec Verif.FactorProofs Verif.PropsFactor Verif.ExprModel Verif.ExprSpec Verif.ExprProofs Verif.PropsExpr
  Verif.LexerModel Verif.LexerSpec Verif.ParserModel Verif.SourceSpec Verif.SourceProofs Verif.WriteSpec
  Verif.CircuitModel Verif.LangSpec Verif.LangHeap Verif.LangSym Verif.LangTree Verif.LangScope Verif.LangRun Verif.LangBuild Verif.LangTotal Verif.LangEnds Verif.LangAccept Verif.OpsProofs
  Verif.PropsLang Verif.PropsProgram Verif.PropsSource.
Import ListNotations.
Local Open Scope string_scope.
Local Open Scope list_scope.
Local Open Scope nat_scope.

(** ** C85.  A well-formed program is accepted. *)
Theorem C85_accepted : forall sort hash q fs cs, prog_ok fs -> publics_at_main fs -> enc_prog fs cs ->
  exists n0 p, (forall n, n0 <= n -> build sort hash q n cs = Done p) /\ ppublic p = "1" :: publics fs /\
    (pmain p <> None <-> In "main" (map fst fs)).
Proof.
  intros sort hash q fs cs [Nd Ok] Pm En.
  destruct (prog_total fs fs cs En [new_circuit "global" None] _ eq_refl eq_refl eq_refl (fun _ _ => eq_refl) Nd Ok Pm) as (n0 & h & H).
  destruct (pre_prog fs fs cs En n0 [new_circuit "global" None] h _ (H n0 (le_n _)) eq_refl eq_refl eq_refl Ok) as (g & Ng & _ & _ & _ & On & P).
  exists n0, (Program h (lookup "main" (ffuns g)) ("1" :: publics fs)). split; [|split; [reflexivity|]].
  - intros n L. unfold build. rewrite (prog_publics sort hash q n fs cs En). cbn [bind]. rewrite H by exact L. cbn [bind]. unfold fetch. rewrite Ng. reflexivity.
  - cbn [pmain]. assert (K : In "main" (map fst fs) <-> find_at "main" fs <> None).
    { destruct (find_at "main" fs) eqn:E; [|apply find_at_none in E]; split; intros X; try easy; try (now destruct X). apply find_in_keys in E. exact E. }
    rewrite K. split.
    + intros L. destruct (lookup "main" (ffuns g)) as [a|] eqn:E; [|easy]. destruct (On _ _ E) as [Y|Y]; [discriminate Y|exact Y].
    + intros F. destruct (find_at "main" fs) as [d|] eqn:E; [|easy]. destruct (P _ _ E) as (a & La & _). rewrite La. discriminate.
Qed.
Print Assumptions C85_accepted.
(** Nothing else is: public declarations anywhere else are refused. *)
Theorem C85_publics : forall sort hash q fs cs n p, prog_ok fs -> enc_prog fs cs -> build sort hash q n cs = Done p -> publics_at_main fs.
Proof.
  intros sort hash q fs cs n p [Nd Ok] En Eb. unfold build in Eb. apply bind_inv in Eb. destruct Eb as (pub & _ & Eb). apply bind_inv in Eb. destruct Eb as (h & Ep & _).
  exact (prog_placed fs fs cs En n _ h _ Ep eq_refl eq_refl eq_refl Ok).
Qed.
Print Assumptions C85_publics.
Theorem C85_text : forall sort hash q text fs, is_program text fs -> prog_ok fs -> publics_at_main fs ->
  exists cs n0 p, constraints text cs /\ enc_prog fs cs /\ (forall n, n0 <= n -> build sort hash q n cs = Done p) /\
    forall n, n0 <= n -> compile_text sort hash q n text = run_program sort hash q n p.
Proof.
  intros sort hash q text fs P Ok Pm. destruct (C83_read _ _ P) as (cs & C & En). destruct (C85_accepted sort hash q fs cs Ok Pm En) as (n0 & p & B & _).
  destruct (constraints_compile text cs sort hash q C) as (n1 & E). exists cs, (Nat.max n0 n1), p. split; auto. split; auto. split.
  - intros n L. apply B. lia.
  - intros n L. rewrite E by lia. rewrite B by lia. reflexivity.
Qed.
Print Assumptions C85_text.
Lemma C85_at_main : publics_at_main C81_defs.
Proof.
  intros f d [E|[E|[]]]; injection E as <- <-; cbn [fbody]; repeat (apply Forall_cons; [first [left; reflexivity | right; split; [reflexivity|eexists; reflexivity]]|]); apply Forall_nil.
Qed.
Example C85_case : exists cs n0 p, constraints C81_text cs /\ enc_prog C81_defs cs /\ (forall n, n0 <= n -> build sort_factors toy_hash 101 n cs = Done p) /\
  forall n, n0 <= n -> compile_text sort_factors toy_hash 101 n C81_text = run_program sort_factors toy_hash 101 n p.
Proof. exact (C85_text _ _ _ _ _ C83_program C81_ok C85_at_main). Qed.
(** A public declaration in another function is refused, whatever the hash and the field. *)
Definition C85_defs : defs := [("main", Fun ["x"] [Return (Call "f" [Var "x"])]); ("f", Fun ["a"] [Public "a"; Return (Var "a")])].
Definition C85_source := "
func main(x){
	return f(x)
}
func f(a){
	public{a}
	return a
}
".
Lemma C85_encoded : enc_prog C85_defs (tree_of 1000 C85_source).
Proof.
  remember (tree_of 1000 C85_source) as cs eqn:E. vm_compute in E. subst cs. unfold C85_defs.
  assert (En : forall t s, ends t (Con (Tok t s) [])) by (split; reflexivity).
  apply (enc_fun "main" ["x"] _ _ [_] _ _); [|apply En|].
  - apply (enc_cons _ _ [_] _); [apply enc_return; enc_exp|apply enc_nil].
  - apply (enc_fun "f" ["a"] _ _ [_; _] _ _); [|apply En|apply enc_none].
    apply (enc_cons _ _ [_] _); [apply enc_public|]. apply (enc_cons _ _ [_] _); [apply enc_return; enc_exp|apply enc_nil].
Qed.
Lemma C85_ok : prog_ok C85_defs.
Proof.
  split; [repeat (constructor; [apply absent; reflexivity|]); constructor|].
  assert (C : callable C85_defs "f" 1) by (split; [discriminate|eexists; split; reflexivity]).
  assert (G : gives C85_defs "f") by (eexists; split; [reflexivity|]; eexists; right; left; reflexivity).
  constructor; [|constructor; [|constructor]]; unfold fun_ok; cbn [fst snd fparams fbody]; heading; cbn [block_ok stmt_ok exp_ok app]; unfold new_ok, name_ok, cond_ok; cbn [cleft cright exp_ok]; scope.
Qed.
Example C85_elsewhere : prog_ok C85_defs /\ enc_prog C85_defs (tree_of 1000 C85_source) /\
  forall sort hash q n p, build sort hash q n (tree_of 1000 C85_source) <> Done p.
Proof.
  split; [exact C85_ok|]. split; [exact C85_encoded|]. intros sort hash q n p H.
  assert (X := C85_publics _ _ _ _ _ _ _ C85_ok C85_encoded H "f" _ (or_intror (or_introl eq_refl))). inversion X as [|t l [Y|[Y _]]]; discriminate Y.
Qed.

(** ** C86.  Compiling evaluates the program over factor lists, with lexical scoping. *)
Theorem C86_refines : forall sort hash q fs cs n n' p r st, prog_ok fs -> enc_prog fs cs -> build sort hash q n cs = Done p ->
  run_program sort hash q n' p = Done (r, st) -> Forall distinct_names (sstored st) ->
  exists ins body v, find_at "main" fs = Some (Fun ins body) /\
    mb (sym sort hash q) fs (map (fun x => (x, argument x)) ins) (Coll [] [], []) body v (scoll st, strace st) /\
    strip (rvals r) = match v with Some f => f | None => [] end.
Proof.
  intros sort hash q fs cs n n' p r st Ok En Eb Er D. destruct (runs_symbolic sort hash q fs Ok cs n n' p r st En Eb Er D) as (ins & body & F & M & _).
  exists ins, body, (opt (strip (rvals r))). split; [exact F|]. split; [exact M|]. destruct (strip (rvals r)); reflexivity.
Qed.
Print Assumptions C86_refines.
(** The other way: an evaluation in which every value has factors of different names is what compiling ends with. *)
Theorem C86_ends : forall sort hash q fs cs ins body v c t, prog_ok fs -> publics_at_main fs -> enc_prog fs cs -> find_at "main" fs = Some (Fun ins body) ->
  mb (strict sort hash q) fs (map (fun x => (x, argument x)) ins) (Coll [] [], []) body v (c, t) ->
  exists n0 p, (forall n, n0 <= n -> build sort hash q n cs = Done p) /\
    ((exists r st, (forall n, n0 <= n -> run_program sort hash q n p = Done (r, st)) /\
        opt (strip (rvals r)) = v /\ scoll st = c /\ strace st = t /\ Forall distinct_names (sstored st)) \/
     (forall n, n0 <= n -> run_program sort hash q n p = Alias)).
Proof.
  intros sort hash q fs cs ins body v c t Ok Pm En F M. destruct (C85_accepted sort hash q fs cs Ok Pm En) as (n0 & p & B & _).
  destruct (runs_total sort hash q fs Ok cs n0 p ins body v (c, t) En (B n0 (le_n _)) F M) as (n1 & H).
  exists (Nat.max n0 n1), p. split; [intros n L; apply B; lia|]. destruct H as [([r st] & (E1 & E2 & D) & E)|E].
  - left. exists r, st. cbn [fst snd] in *. injection E2 as E2 E3. split; [intros n L; apply E; lia|]. auto.
  - right. intros n L. apply E. lia.
Qed.
Print Assumptions C86_ends.
Theorem C86_text : forall sort hash q text fs ins body v c t, is_program text fs -> prog_ok fs -> publics_at_main fs -> find_at "main" fs = Some (Fun ins body) ->
  mb (strict sort hash q) fs (map (fun x => (x, argument x)) ins) (Coll [] [], []) body v (c, t) ->
  exists n0, (exists r st, (forall n, n0 <= n -> compile_text sort hash q n text = Done (r, st)) /\
        opt (strip (rvals r)) = v /\ scoll st = c /\ strace st = t /\ Forall distinct_names (sstored st)) \/
     (forall n, n0 <= n -> compile_text sort hash q n text = Alias).
Proof.
  intros sort hash q text fs ins body v c t P Ok Pm F M. destruct (C83_read _ _ P) as (cs & C & En).
  destruct (C86_ends sort hash q fs cs ins body v c t Ok Pm En F M) as (n0 & p & B & H).
  destruct (constraints_compile text cs sort hash q C) as (n1 & E). exists (Nat.max n0 n1).
  assert (T : forall n, Nat.max n0 n1 <= n -> compile_text sort hash q n text = run_program sort hash q n p) by (intros n L; rewrite E by lia; rewrite B by lia; reflexivity).
  destruct H as [(r & st & R & X)|R]; [left; exists r, st; split; [|exact X]|right]; intros n L; rewrite T by exact L; apply R; lia.
Qed.
Print Assumptions C86_text.
Section Steps.
Variable sort : factors -> factors.
Variable hash : string -> Z.
Variable q : Z.
Variable fs : defs.
Notation st := (strict sort hash q).
Lemma step_num m s x z b : string_to_field q x = Some (z, b) -> ev st fs m s (Num x) [Fac (Tok TNumber x) z] s.
Proof. intros E. apply ev_num. exists z, b. auto. Qed.
Lemma step_var m s x u v : find_at x m = Some u -> is_single_number u = false -> reload q u = Some v -> distinctb v = true -> ev st fs m s (Var x) v s.
Proof. intros F N R D. apply (ev_var st fs m s x u v F). split; [|apply distinctb_ok; exact D]. unfold st. cbn [dread sym]. unfold read_as. rewrite N. exact R. Qed.
Lemma step_known m s x u a : find_at x m = Some [Fac (Tok TNumber u) a] -> ev st fs m s (Var x) [Fac (Tok TNumber u) a] s.
Proof. intros F. apply (ev_var st fs m s x _ _ F). split; [reflexivity|]. apply distinctb_ok. reflexivity. Qed.
Lemma step_op m s o a b s1 va c vb t v c' t' : ev st fs m s a va s1 -> ev st fs m s1 b vb (c, t) -> compile_op_tr sort hash q c o va vb t = Some (c', v, t') -> distinctb v = true ->
  ev st fs m s (Bin o a b) v (c', t').
Proof. intros A B E D. apply (ev_bin st fs m s o a b s1 va (c, t) vb v (c', t') A B). split; [exact E|apply distinctb_ok; exact D]. Qed.
Lemma step_test m o a b x y s1 s2 r : ev st fs m (Coll [] [], []) a [x] s1 -> ev st fs m (Coll [] [], []) b [y] s2 -> is_number x = true -> is_number y = true ->
  compare_as o (mult x) (mult y) = Done r -> test st fs m (Cmp o a b) r.
Proof. intros A B X Y E. apply (test_cmp st fs m (Cmp o a b) [x] s1 [y] s2 r A B). exists x, y. auto. Qed.
Lemma step_equal m s a b va s1 vb c t c' g : ev st fs m s a va s1 -> ev st fs m s1 b vb (c, t) -> compile_equal sort hash c va vb = Some c' ->
  with_id sort hash (Gate GEqual "" va vb [] [] true no_token) = Some g -> xs st fs m s (Equal a b) m None false (c', t ++ [g]).
Proof. intros A B E G. apply (xs_equal st fs m s a b va s1 vb (c, t) (c', t ++ [g]) A B). split; [exact E|]. exists g. auto. Qed.
Lemma step_done c t v c' t' : complete sort hash (St [] c t []) (match v with Some f => f | None => [] end) = Done (St [] c' t' []) -> ddone st (c, t) v (c', t').
Proof. intros E. exact E. Qed.
End Steps.
Ltac sstep := first
  [ eapply step_num; vm_compute; reflexivity
  | eapply step_known; vm_compute; reflexivity
  | eapply step_var; [vm_compute; reflexivity|vm_compute; reflexivity|vm_compute; reflexivity|vm_compute; reflexivity]
  | eapply step_op; [sstep|sstep|vm_compute; reflexivity|vm_compute; reflexivity]
  | eapply ev_call; [eapply evs_cons; [sstep|apply evs_nil]|eapply call_fun; [reflexivity|reflexivity|eapply xb_return, xs_return; sstep]] ].
Ltac sdone := eapply step_done; vm_compute; reflexivity.
Ltac stest := eapply step_test; [sstep|sstep|vm_compute; reflexivity|vm_compute; reflexivity|vm_compute; reflexivity].
Definition C86_start := map (fun x => (x, argument x)) ["x"; "y"].
Lemma C86_met : exists body v c t, find_at "main" C81_defs = Some (Fun ["x"; "y"] body) /\
  mb (strict sort_factors toy_hash 101) C81_defs C86_start (Coll [] [], []) body (Some v) (c, t) /\ List.length (gates c) = 5 /\ v <> [].
Proof.
  eexists _, _, _, _. split; [reflexivity|]. split.
  - eapply mb_cons; [apply xs_public|sdone|]. eapply mb_cons; [apply xs_decl; sstep|sdone|].
    eapply mb_cons.
    + eapply xs_for; [stest| | |vm_compute; discriminate|].
      * eapply xb_cons; [|apply xb_nil]. eapply xs_assign; [|vm_compute; discriminate].
        sstep.
      * sstep.
      * eapply xs_for; [stest| | |vm_compute; discriminate|].
        -- eapply xb_cons; [|apply xb_nil]. eapply xs_assign; [|vm_compute; discriminate].
           sstep.
        -- sstep.
        -- apply xs_for_end. stest.
    + sdone.
    + eapply mb_cons.
      * eapply step_equal; [sstep|sstep|vm_compute; reflexivity|vm_compute; reflexivity].
      * sdone.
      * eapply mb_return; [apply xs_return; sstep|sdone].
  - vm_compute. repeat split; discriminate.
Qed.
Example C86_case : exists n0, (exists r st, (forall n, n0 <= n -> compile_text sort_factors toy_hash 101 n C81_text = Done (r, st)) /\ strip (rvals r) <> [] /\ List.length (gates (scoll st)) = 5) \/
  (forall n, n0 <= n -> compile_text sort_factors toy_hash 101 n C81_text = Alias).
Proof.
  destruct C86_met as (body & v & c & t & F & M & G & V).
  destruct (C86_text _ _ _ _ _ _ _ _ _ _ C83_program C81_ok C85_at_main F M) as (n0 & [(r & st & E & Ev & Ec & _)|E]); exists n0; [left|right; exact E].
  exists r, st. split; [exact E|]. split; [|rewrite Ec; exact G]. intros X. rewrite X in Ev. discriminate Ev.
Qed.

(** The operations of that evaluation: when they are defined. *)
Theorem C86_ops : forall sort hash q s o l r, prime q -> (forall a b c, 16 <= String.length (dec (Z.lxor (hash a + hash b) (hash c)))) ->
  In o ["+"; "-"; "*"; "/"] -> good q l -> good q r ->
  ((exists v s', dop (sym sort hash q) o s l r v s') <-> op_defined q o l r).
Proof. intros sort hash q s o l r Hq L I Gl Gr. exact (dop_total sort hash q Hq L s o l r I Gl Gr). Qed.
Print Assumptions C86_ops.
Example C86_ops_case : let hash := fun _ : string => (10 ^ 20)%Z in
  let x := [Fac (Tok TArgument "x") 0%Z; Fac (Tok TNumber "0") 0%Z] in let y := [Fac (Tok TArgument "y") 3%Z; Fac (Tok TNumber "6") 6%Z] in
  prime 101 /\ (forall a b c : string, 16 <= String.length (dec (Z.lxor (hash a + hash b) (hash c)))) /\ good 101 x /\ good 101 y /\
  op_defined 101 "*" y y /\ op_defined 101 "/" y y /\ ~ op_defined 101 "*" x y /\ ~ op_defined 101 "/" y x /\ op_defined 101 "-" x y.
Proof.
  assert (G : forall n k : Z, forall v, set_string10 (dec k) = Some k -> ~ In v reserved -> v <> "" -> good 101 [Fac (Tok TArgument v) n; Fac (Tok TNumber (dec k)) k]).
  { intros n k v E R N. split; [discriminate|]. split; [|cbn; lia]. constructor; [right; split; [reflexivity|split; [exact N|exact R]]|]. constructor; [|constructor]. left. split; [reflexivity|]. exists k. split; [exact E|reflexivity]. }
  assert (Y : not_all_zero [Fac (Tok TArgument "y") 3%Z; Fac (Tok TNumber "6") 6%Z]) by (left; discriminate).
  assert (D : not_all_multiples 101 [Fac (Tok TArgument "y") 3%Z; Fac (Tok TNumber "6") 6%Z]) by (left; intros [k Hk]; cbn in Hk; lia).
  cbv zeta. split; [exact prime_101|]. split; [intros a b c; apply Nat.leb_le; vm_compute; reflexivity|].
  split; [apply (G 0%Z 0%Z "x"); [reflexivity|apply absent; reflexivity|discriminate]|]. split; [apply (G 3%Z 6%Z "y"); [reflexivity|apply absent; reflexivity|discriminate]|].
  split; [right; right; auto|]. split; [split; assumption|]. split; [|split; [|exact Logic.I]].
  - intros [X|[X|[X _]]]; try discriminate X. inversion X as [? ? X1|? ? X1]; [now apply X1|]. inversion X1 as [? ? X2|? ? X2]; [now apply X2|inversion X2].
  - intros [_ X]. inversion X as [? ? X1|? ? X1]; [apply X1, Z.divide_0_r|]. inversion X1 as [? ? X2|? ? X2]; [apply X2, Z.divide_0_r|inversion X2].
Qed.

(** A program with a meaning in the field whose compilation panics: in the first round of the loop the
    factors of x*k all have multiplicity 0, and multiplying by y divides by their gcd
    (factorHandling.go:58-70). *)
Definition C86_zero : defs := [("main", Fun ["x"; "y"] [Decl "k" (Num "0"); Decl "s" (Var "x");
  For (Cmp "<" (Var "k") (Num "2")) "k" (Bin "+" (Var "k") (Num "1"))
    [Assign "s" (Bin "+" (Var "s") (Bin "*" (Bin "*" (Var "x") (Var "k")) (Var "y")))];
  Return (Var "s")])].
Lemma C86_zero_ok : prog_ok C86_zero /\ publics_at_main C86_zero /\ writable C86_zero.
Proof.
  split; [|split].
  - split; [repeat (constructor; [apply absent; reflexivity|]); constructor|].
    constructor; [|constructor]; unfold fun_ok; cbn [fst snd fparams fbody]; heading; cbn [block_ok stmt_ok exp_ok app]; unfold new_ok, name_ok, cond_ok; cbn [cleft cright exp_ok]; scope.
  - intros f d [E|[]]; injection E as <- <-; cbn [fbody]; repeat (apply Forall_cons; [left; reflexivity|]); apply Forall_nil.
  - unfold C86_zero. repeat (constructor; [split; [nmd|split; [repeat (constructor; [nmd|]); constructor|cbn [snd fbody]; wr]]|]). constructor.
Qed.
Lemma C86_zero_means gx : program_means 101 gx C86_zero (fun _ => 3%Z) (Some (Wire 12)) [].
Proof.
  eexists _, _. split; [reflexivity|]. cbn [map].
  assert (Step : forall s k (s0 : list (Z * Z)) z z' z'', z ==[101] 3 * k -> z' ==[101] z * 3 -> z'' ==[101] s + z' ->
    xb (field_values 101 gx) C86_zero [("x", Wire 3); ("y", Wire 3); ("k", Known k); ("s", Wire s)] s0
      [Assign "s" (Bin "+" (Var "s") (Bin "*" (Bin "*" (Var "x") (Var "k")) (Var "y")))] [("x", Wire 3); ("y", Wire 3); ("k", Known k); ("s", Wire z'')] None s0).
  { intros s k s0 z z' z'' E1 E2 E3. eapply xb_cons; [|apply xb_nil].
    change [("x", Wire 3); ("y", Wire 3); ("k", Known k); ("s", Wire z'')] with (put_at "s" (Wire z'') [("x", Wire 3); ("y", Wire 3); ("k", Known k); ("s", Wire s)]).
    apply xs_assign; [|discriminate]. eapply ev_bin; [field_ev| |]; [eapply ev_bin; [|field_ev|]; [eapply ev_bin; [field_ev|field_ev|]|]|].
    - split; [|reflexivity]. apply value_left with (z := z). now apply result_mul.
    - split; [|reflexivity]. apply value_left with (z := z'). now apply result_mul.
    - split; [|reflexivity]. apply value_left. now apply result_add. }
  eapply mb_cons; [apply xs_decl; field_ev|reflexivity|]. eapply mb_cons; [apply xs_decl; field_ev|reflexivity|]. cbn [app].
  eapply mb_cons; [|reflexivity|].
  { eapply xs_for; [eapply test_cmp; [field_ev|field_ev|apply cmp_lt]|apply (Step 3%Z 0%Z [] 0%Z 0%Z 3%Z); cong| |discriminate|].
    { eapply ev_bin; [field_ev|field_ev|]. split; [apply value_known with (z := 1%Z); [lia|apply result_add; cong]|reflexivity]. }
    eapply xs_for; [eapply test_cmp; [field_ev|field_ev|apply cmp_lt]|apply (Step 3%Z 1%Z [] 3%Z 9%Z 12%Z); cong| |discriminate|].
    { eapply ev_bin; [field_ev|field_ev|]. split; [apply value_known with (z := 2%Z); [lia|apply result_add; cong]|reflexivity]. }
    apply xs_for_end. eapply test_cmp; [field_ev|field_ev|apply cmp_lt]. }
  eapply mb_return; [|reflexivity]. apply xs_return. field_ev.
Qed.
Lemma C86_zero_panics sort hash m : compile_text sort hash 101 (300 + m) (write C86_zero) = Panic.
Proof. vm_compute. reflexivity. Qed.
Theorem C86_zero_refuted : exists fs, prog_ok fs /\ publics_at_main fs /\ is_program (write fs) fs /\
  (forall gx, program_means 101 gx fs (fun _ => 3%Z) (Some (Wire 12)) []) /\
  forall sort hash, exists n0, forall n, n0 <= n -> compile_text sort hash 101 n (write fs) = Panic.
Proof.
  exists C86_zero. destruct C86_zero_ok as (A & B & C). split; [exact A|]. split; [exact B|]. split; [apply C84_written; exact C|]. split; [exact C86_zero_means|].
  intros sort hash. exists 300. intros n L. replace n with (300 + (n - 300)) by lia. apply C86_zero_panics.
Qed.
Print Assumptions C86_zero_refuted.
