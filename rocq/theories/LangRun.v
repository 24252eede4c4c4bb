(** The interpreter runs a program as its meaning over factor lists says. *)
Require Import ZArith Lia Bool Ascii String List.
Require Import Verif.FqModel Verif.FactorModel Verif.ParserModel Verif.CircuitModel Verif.LangSpec Verif.LangHeap Verif.LangSym Verif.LangTree Verif.LangScope Verif.LangLater.
Import ListNotations.
Local Open Scope string_scope.
Local Open Scope list_scope.
Local Open Scope nat_scope.

(** ** Arguments *)
Lemma stored_new q h f h' a : factors_function q h f = Done (h', a) -> good q f -> distinct_names f -> older h h' /\ stored_at h' a f.
Proof.
  intros E (N & F & C) D. destruct (factors_function_vobj q h f h' a E N C D) as (O & V & o & No & Fn).
  { eapply Forall_impl; [|exact F]. intros x Hx. now apply fac_ok_name in Hx. }
  split; auto. destruct (vobj_name _ _ _ _ _ V No) as (Nm & Fi & Fc). exists o. split; auto. split; auto. split; auto.
  assert (V0 : vobj 0 h' a f) by (eapply vobj_le; [|exact V]; lia).
  destruct f as [|x [|y f]]; auto. destruct (is_number x); auto.
Qed.
Lemma arguments_stored q : forall rs h args h2, argument_functions q rs h = Done (args, h2) ->
  Forall (good q) (map (fun r => strip (rvals r)) rs) -> Forall distinct_names (map (fun r => strip (rvals r)) rs) ->
  older h h2 /\ Forall2 (stored_at h2) args (map (fun r => strip (rvals r)) rs).
Proof.
  induction rs as [|r rs IH]; intros h args h2 E G D; cbn [argument_functions] in E.
  - injection E as <- <-. split; [apply older_refl|constructor].
  - cbn [map] in *. inversion G as [|? ? G1 G2]; inversion D as [|? ? D1 D2]; subst. apply bind_inv in E. destruct E as ([h1 a] & E1 & E).
    apply bind_inv in E. destruct E as ([l h3] & E2 & E). injection E as <- <-.
    assert (E1' : factors_function q h (strip (rvals r)) = Done (h1, a)).
    { revert E1. destruct (strip (rvals r)) eqn:Es; auto. destruct G1 as [G1 _]. easy. }
    destruct (stored_new _ _ _ _ _ E1' G1 D1) as (O1 & S1). destruct (IH _ _ _ E2 G2 D2) as (O2 & S2).
    split; [eapply older_trans; eauto|]. constructor; auto. eapply stored_agree; [|exact S1]. intros. eapply older_nth; eauto.
Qed.
Lemma store_store h a o o' : store (store h a o) a o' = store h a o'.
Proof. revert a. induction h as [|x h IH]; intros [|a]; cbn; auto. now rewrite IH. Qed.
Lemma load_inputs_spec : forall names new h a o h' rest, load_inputs h a names new = Done (h', rest) -> List.length names = List.length new ->
  nth_error h a = Some o -> NoDup names -> (forall x, In x names -> In x (keys (ffuns o))) ->
  rest = [] /\ exists m, h' = store h a (with_funs o m) /\ keys m = keys (ffuns o) /\
    forall x, lookup x m = match find_at x (combine names new) with Some b => Some b | None => lookup x (ffuns o) end.
Proof.
  induction names as [|y names IH]; intros [|v new] h a o h' rest E Ln N Nd K; try discriminate; cbn [load_inputs] in E.
  - injection E as <- <-. split; auto. exists (ffuns o). split; [|split; auto]. destruct o; cbn. now rewrite store_same.
  - apply bind_inv in E. destruct E as (h1 & E1 & E). rewrite (set_fun_store _ _ _ _ _ _ E1 N) in E. inversion Nd as [|? ? N1 N2]; subst. clear E1.
    assert (Lt := nth_lt _ _ _ N).
    destruct (IH new _ a (assigned o y v) h' rest E) as (-> & m & -> & Km & Lm); auto.
    { now apply nth_store_eq. }
    { intros x I. unfold assigned. cbn. apply set_at_keys. right. apply K. now right. }
    split; auto. exists m. split; [rewrite store_store; reflexivity|]. unfold assigned in *. cbn [with_funs ffuns] in *.
    split; [rewrite Km; apply set_at_keys_old, K; now left|].
    intros x. rewrite Lm, lookup_set_at. cbn [combine find_at]. destruct (String.eqb_spec x y) as [Exy|_]; [|reflexivity].
    subst x. assert (F : find_at y (combine names new) = None).
    { apply find_at_none. intros I. apply N1. unfold keys in I. apply in_map_iff in I. destruct I as ([k b] & Ek & I). cbn in Ek. subst k. now apply in_combine_l in I. }
    now rewrite F.
Qed.
Lemma older_keeps h h3 h4 : older h h3 -> keeps (List.length h) h3 h4 -> older h h4.
Proof.
  intros O [_ K]. apply older_eq. intros a L. destruct (nth_error h a) as [o|] eqn:N; [|apply nth_error_None in N; lia].
  destruct (K a o (older_nth _ _ _ _ O N)) as (o' & N' & _ & Eq). rewrite N'. f_equal. auto.
Qed.
Lemma Forall2_len {A B} (P : A -> B -> Prop) l1 l2 : Forall2 P l1 l2 -> List.length l1 = List.length l2.
Proof. induction 1; cbn; auto. Qed.
Lemma Forall2_combine {A B} (P : A -> B -> Prop) ps : forall l1 l2, Forall2 P l1 l2 -> forall x b, find_at x (combine ps l2) = Some b -> exists a, find_at x (combine ps l1) = Some a /\ P a b.
Proof.
  induction ps as [|p ps IH]; intros l1 l2 F x b E; [discriminate|]. destruct F as [|a1 b1 l1 l2 H F]; [discriminate|]. cbn in *.
  destruct (String.eqb x p); [injection E as <-; eauto|eauto].
Qed.
Lemma find_combine_none {A B} (ps : list string) : forall (l1 : list A) (l2 : list B) x, List.length l1 = List.length l2 -> find_at x (combine ps l1) = None -> find_at x (combine ps l2) = None.
Proof. induction ps as [|p ps IH]; intros [|a l1] [|b l2] x L E; try discriminate; auto. cbn in *. destruct (String.eqb x p); [discriminate|]. eapply IH; eauto. Qed.
Lemma keys_combine {A} (ps : list string) : forall (l : list A), List.length ps = List.length l -> keys (combine ps l) = ps.
Proof. induction ps as [|p ps IH]; intros [|a l] L; try discriminate; auto. cbn in *. f_equal. apply IH. auto. Qed.

Section P.
Variable sort : factors -> factors.
Variable hash : string -> Z.
Variable q : Z.
Variable fs : defs.
Notation compile := (compile sort hash q).
Notation operate := (operate sort hash q).
Notation good := (good q).
Notation sym := (sym sort hash q).
Notation chain := (chain q fs).
Notation world := (world fs).
Hypothesis Pok : prog_ok fs.

Lemma find_fun_ok f d : find_at f fs = Some d -> fun_ok fs f d.
Proof. intros H. apply find_at_In in H. destruct Pok as [_ P]. rewrite Forall_forall in P. exact (P _ H). Qed.
Lemma stmt_block ns inl ini vs ts :
  (fix go (inl ini : bool) (vs : list string) (ts : list stmt) : Prop :=
     match ts with [] => True | t :: ts' => stmt_ok fs ns inl ini vs t /\ go inl ini (match t with Decl x _ => vs ++ [x] | _ => vs end) ts' end) inl ini vs ts
  -> block_ok fs ns inl ini vs ts.
Proof using Type. revert vs. induction ts as [|t ts IH]; intros vs H; [exact I|]. destruct H as [A B]. split; [exact A|]. now apply IH. Qed.
Lemma block_decls ns inl ini ts : forall vs x, block_ok fs ns inl ini vs ts -> In x (decls ts ++ arrays ts) -> new_ok fs ns vs x.
Proof using Type.
  induction ts as [|t ts IH]; intros vs x; cbn; [easy|]. intros [A B] I.
  assert (I' : In x (decls [t] ++ arrays [t]) \/ In x (decls ts ++ arrays ts)).
  { unfold decls, arrays in I |- *. cbn [flat_map] in I |- *. rewrite !app_nil_r. repeat rewrite in_app_iff in I. repeat rewrite in_app_iff.
    destruct I as [[I|I]|[I|I]]; [left; left|right; left|left; right|right; right]; exact I. }
  clear I. destruct I' as [I|I].
  - destruct t; cbn in I; try (exfalso; exact I); (destruct I as [I|I]; [|exfalso; exact I]); rewrite <- I; exact (proj2 A) || exact A.
  - specialize (IH _ x B I). destruct IH as (N1 & N2 & N3). split; auto. split; auto. intros C. apply N2. destruct t; auto. apply in_app_iff. now left.
Qed.

Definition opt (f : factors) : option factors := match f with [] => None | _ => Some f end.
Lemma later_forall s1 s2 : later s1 s2 -> Forall distinct_names (sstored s2) -> Forall distinct_names (sstored s1).
Proof. intros [l ->] F. apply Forall_app in F. tauto. Qed.

Definition EXP (n : nat) : Prop := forall ns e c cur st r st' a m fr L,
  compile n cur c st = Done (r, st') -> enc e c -> chain ns L (sheap st) ((a, m) :: fr) -> sees (sheap st) cur a -> world (sheap st) ->
  exp_ok fs ns (keys (env_of ((a, m) :: fr))) e -> Forall distinct_names (sstored st') ->
  ev sym fs (env_of ((a, m) :: fr)) (record_of st) e (strip (rvals r)) (record_of st') /\ good (strip (rvals r)) /\ rflag r = false /\
  older (sheap st) (sheap st').
Definition BLOCK (n : nat) : Prop := forall ns B ts a m fr st r st' L inl ini o,
  run_tasks (compile n a) ts st = Done (r, st') -> nth_error (sheap st) a = Some o -> kids (sheap st) a B ts ->
  (forall x, In x (decls B) -> In x (keys (fcons o)) /\ In x (keys (ffuns o))) ->
  chain ns L (sheap st) ((a, m) :: fr) -> world (sheap st) -> block_ok fs ns inl ini (keys (env_of ((a, m) :: fr))) B -> Forall distinct_names (sstored st') ->
  exists m' fr', xb sym fs (env_of ((a, m) :: fr)) (record_of st) B (env_of ((a, m') :: fr')) (opt (strip (rvals r))) (record_of st') /\
    chain ns L (sheap st') ((a, m') :: fr') /\ same_frames fr fr' /\ keeps L (sheap st) (sheap st') /\
    (strip (rvals r) = [] \/ good (strip (rvals r))) /\ (rflag r = true <-> strip (rvals r) <> []) /\ (inl = true -> rflag r = false) /\ (returns B -> rflag r = true).
Definition STMT (n : nat) : Prop := forall ns t c a m fr st r st' L inl ini o,
  compile n a c st = Done (r, st') -> nth_error (sheap st) a = Some o -> kid (sheap st) a t c ->
  (forall x, In x (decls [t]) -> In x (keys (fcons o)) /\ In x (keys (ffuns o))) ->
  chain ns L (sheap st) ((a, m) :: fr) -> world (sheap st) -> stmt_ok fs ns inl ini (keys (env_of ((a, m) :: fr))) t -> Forall distinct_names (sstored st') ->
  exists m' fr', xs sym fs (env_of ((a, m) :: fr)) (record_of st) t (env_of ((a, m') :: fr')) (opt (strip (rvals r))) (rflag r) (record_of st') /\
    chain ns L (sheap st') ((a, m') :: fr') /\ same_frames fr fr' /\ keys m' = keys m ++ decls [t] /\ keeps L (sheap st) (sheap st') /\
    (strip (rvals r) = [] \/ good (strip (rvals r))) /\ (rflag r = true -> strip (rvals r) <> []) /\ (inl = true -> rflag r = false) /\
    (forall e, t = Return e -> rflag r = true).

Lemma exps_all ns vs args :
  (fix all (l : list exp) : Prop := match l with [] => True | a :: l' => exp_ok fs ns vs a /\ all l' end) args -> Forall (exp_ok fs ns vs) args.
Proof. induction args as [|a args IH]; [constructor|]. intros [A B]. constructor; auto. Qed.

Lemma sees_older h h' c p : older h h' -> sees h c p -> sees h' c p.
Proof. intros O. apply sees_agree. intros. eapply older_nth; eauto. Qed.
Lemma world_older h h' : older h h' -> world h -> world h'.
Proof. intros O. apply (world_keeps fs 0). now apply keeps_older. Qed.

Lemma all_args n : EXP n -> forall ns es cs, encs es cs -> forall cur st rs st' a m fr L,
  comp_all (compile n cur) cs st = Done (rs, st') -> chain ns L (sheap st) ((a, m) :: fr) -> sees (sheap st) cur a -> world (sheap st) ->
  Forall (exp_ok fs ns (keys (env_of ((a, m) :: fr)))) es -> Forall distinct_names (sstored st') ->
  evs sym fs (env_of ((a, m) :: fr)) (record_of st) es (map (fun r => strip (rvals r)) rs) (record_of st') /\
  Forall good (map (fun r => strip (rvals r)) rs) /\ List.length rs = List.length es /\ older (sheap st) (sheap st').
Proof.
  intros IH ns. induction es as [|e es IHes]; intros cs En cur st rs st' a m fr L E Ch Se W Ok D; inversion En as [|? c ? cs' E1 E2]; subst; cbn [comp_all] in E.
  - injection E as <- <-. split; [constructor|]. split; [constructor|]. split; auto. apply older_refl.
  - apply bind_inv in E. destruct E as ([r st1] & Er & E). apply bind_inv in E. destruct E as ([rs1 st2] & Es & E). injection E as <- <-.
    inversion Ok as [|? ? Ok1 Ok2]; subst.
    assert (D1 : Forall distinct_names (sstored st1)) by (eapply later_forall; [eapply mono_all; [apply mono_compile|exact Es]|exact D]).
    destruct (IH ns e c cur st r st1 a m fr L Er E1 Ch Se W Ok1 D1) as (V1 & G1 & _ & O1).
    destruct (IHes cs' E2 cur st1 rs1 st2 a m fr L Es) as (V2 & G2 & Ln & O2); auto.
    { eapply chain_older; eauto. } { eapply sees_older; eauto. } { eapply world_older; eauto. }
    cbn [map]. split; [econstructor; eauto|]. split; [constructor; auto|]. split; [cbn; auto|]. eapply older_trans; eauto.
Qed.

Lemma call_step ns n cur f es cs st r st' a m fr L : EXP n -> BLOCK n -> user_call sort hash q n cur f cs st = Done (r, st') -> encs es cs ->
  chain ns L (sheap st) ((a, m) :: fr) -> sees (sheap st) cur a -> world (sheap st) -> callable fs f (List.length es) ->
  Forall (exp_ok fs ns (keys (env_of ((a, m) :: fr)))) es -> Forall distinct_names (sstored st') ->
  exists vs s1, evs sym fs (env_of ((a, m) :: fr)) (record_of st) es vs s1 /\ call sym fs s1 f vs (opt (strip (rvals r))) (record_of st') /\
    rflag r = false /\ older (sheap st) (sheap st') /\ (strip (rvals r) = [] \/ good (strip (rvals r))) /\ (gives fs f -> strip (rvals r) <> []).
Proof.
  intros IHe IHb E En Ch Se W [Nm (d & Fd & Ld)] Ok D. unfold user_call in E.
  apply bind_inv in E. destruct E as (w & Ew & E).
  destruct (find_fun_ok _ _ Fd) as (Nf & Ndp & Pp & nf & Inf & Bok).
  unfold find_fun in Ew. destruct (find_sees _ _ _ _ _ _ _ (fun fo => blind_funs f fo Nf) Se Ew) as [n1 Ew1].
  destruct (chain_find_global q fs ns L _ _ Ch a m fr f n1 w eq_refl Nf ltac:(rewrite Fd; discriminate) Ew1) as [n2 Ew2].
  assert (W' := W). destruct W' as (g & Ng & (Cg & _) & Wg). destruct (Wg f d Fd Nm) as (af & Laf & Tf).
  destruct n2 as [|n2]; [discriminate|]. cbn [find_in] in Ew2. unfold fetch in Ew2. rewrite Ng in Ew2. cbn [get bind] in Ew2. rewrite Laf in Ew2. injection Ew2 as <-.
  apply bind_inv in E. destruct E as ([h1 c] & Ec & E). unfold flat_copy in Ec. apply bind_inv in Ec. destruct Ec as (oa & Eoa & Ec). apply fetch_inv in Eoa.
  assert (Hctx : fctx oa = Some 0).
  { inversion Tf; subst. congruence. }
  rewrite Hctx in Ec. assert (Tc := copy_tree_at _ _ _ _ _ _ _ _ _ Tf Ec). destruct (flat_copy_shape _ _ _ _ _ _ Ec) as (O1 & Lc & Llt & _).
  apply bind_inv in E. destruct E as ([rs st2] & Er & E). apply bind_inv in E. destruct E as ([args h2] & Ea & E).
  apply bind_inv in E. destruct E as ([h3 ready] & Eg & E).
  set (st3 := stored (with_heap st2 h3) (map (fun r => strip (rvals r)) rs)) in *.
  assert (D3 : Forall distinct_names (sstored st3)).
  { eapply later_forall; [|exact D]. destruct ready.
    - apply bind_inv in E. destruct E as (ob & _ & E). apply bind_inv in E. destruct E as (ts & _ & E). apply bind_inv in E. destruct E as ([r1 st4] & E4 & E).
      injection E as _ <-. eapply mono_tasks; [apply mono_compile|exact E4].
    - injection E as _ <-. apply later_refl. }
  assert (D3' := D3). unfold st3 in D3'. cbn [sstored stored with_heap] in D3'. apply Forall_app in D3'. destruct D3' as [D2 Da].
  destruct (all_args n IHe ns es cs En cur (with_heap st h1) rs st2 a m fr L Er) as (Vs & Gs & Ln & O2); cbn [with_heap sheap]; auto.
  { eapply chain_older; eauto. } { eapply sees_older; eauto. } { eapply world_older; eauto. }
  cbn [with_heap sheap] in O2.
  destruct (arguments_stored q _ _ _ _ Ea Gs Da) as (O3 & Sa).
  assert (O12 : older (sheap st) h2) by (eapply older_trans; [exact O1|]; eapply older_trans; eauto).
  assert (O13 : older h1 h2) by (eapply older_trans; eauto).
  assert (T2 : tree h2 c (Some 0) (fparams d) (fbody d)) by (eapply tree_keeps; [apply (keeps_older 0); exact O13|exact Tc]).
  inversion T2 as [? ? ? ? o2 ts2 N2 Ctx2 In2 Ts2 K1 K2 K3 Kd]; subst a0 ctx ps B.
  unfold gets_loaded_with in Eg. unfold fetch in Eg. rewrite N2 in Eg. cbn [get bind] in Eg. rewrite In2 in Eg.
  assert (La : List.length args = List.length (fparams d)).
  { assert (X := Forall2_len _ _ _ Sa). rewrite map_length in X. congruence. }
  rewrite La, Nat.ltb_irrefl in Eg.
  apply bind_inv in Eg. destruct Eg as ([h4 rest] & El & Eg).
  destruct (load_inputs_spec _ _ _ _ _ _ _ El (eq_sym La) N2 Ndp) as (-> & mm & -> & Km & Lm).
  { intros x I. apply K2. apply in_app_iff. now left. }
  rewrite nth_store_eq in Eg by (eapply nth_lt; eauto). cbn [get bind] in Eg. rewrite store_store, Nat.eqb_refl in Eg. injection Eg as <- <-.
  set (o3 := with_inputs (with_funs o2 mm) []) in *.
  assert (N3 : nth_error (store h2 c o3) c = Some o3) by (apply nth_store_eq; eapply nth_lt; eauto).
  unfold fetch in E. rewrite N3 in E. cbn [get bind] in E. unfold o3 in E at 1. cbn [with_inputs with_funs ftasks] in E. rewrite Ts2 in E. cbn [get bind] in E.
  apply bind_inv in E. destruct E as ([r1 st4] & E4 & E). injection E as <- <-. cbn [rvals rflag].
  set (vs := map (fun r => strip (rvals r)) rs) in *.
  assert (Lv : List.length (fparams d) = List.length vs) by (unfold vs; rewrite map_length; congruence).
  assert (Sub : forall x b, find_at x (combine (fparams d) args) = Some b -> In x (fparams d)).
  { intros x b Hx. apply find_in_keys in Hx. rewrite keys_combine in Hx by congruence. exact Hx. }
  assert (Kmm : forall x, ~ In x (keys (fcons o2)) -> lookup x mm = lookup x (ffuns o2)).
  { intros x Nx. rewrite Lm. destruct (find_at x (combine (fparams d) args)) as [b|] eqn:Eb; [|reflexivity].
    exfalso. apply Nx, K2, in_app_iff. left. eauto. }
  assert (Unch : fcons o2 = [] -> o3 = o2).
  { intros Z0. assert (P0 : fparams d = []).
    { destruct (fparams d) as [|p ps] eqn:Ep; auto. assert (X : In p (keys (fcons o2))) by (apply K2; now left). rewrite Z0 in X. destruct X. }
    unfold o3. assert (mm = ffuns o2) as ->.
    { rewrite P0 in El. cbn in El. destruct args; [|rewrite P0 in La; discriminate]. injection El as El.
      assert (X : nth_error h2 c = Some (with_funs o2 mm)) by (rewrite El at 1; apply nth_store_eq; eapply nth_lt; eauto). rewrite N2 in X. injection X as X. rewrite X. reflexivity. }
    rewrite <- P0, <- In2. destruct o2; reflexivity. }
  assert (G23 : forall y oy, nth_error h2 y = Some oy -> fcons oy = [] -> nth_error (store h2 c o3) y = Some oy).
  { intros y oy Ny Ey. destruct (Nat.eq_dec c y) as [<-|Ne]; [|now rewrite nth_store_ne]. rewrite N2 in Ny. injection Ny as <-. rewrite N3. f_equal. auto. }
  assert (Ev : evolves h2 (store h2 c o3) (fun x => c < x)).
  { intros y oy Ny. destruct (Nat.eq_dec c y) as [<-|Ne].
    - rewrite N2 in Ny. injection Ny as <-. exists o3. split; auto. split; [unfold o3; repeat split; cbn; auto|]. split; [lia|auto].
    - exists oy. rewrite nth_store_ne by auto. split; auto. split; [repeat split; auto|auto]. }
  assert (O4 : older (sheap st) (store h2 c o3)) by (apply older_store; [exact O12|lia]).
  destruct (IHb nf (fbody d) ts2 c (combine (fparams d) vs) [] st3 r1 st4 c false false o3) as (m' & fr' & X & Ch4 & Sf & Kp & Gr & Rf & _ & Rt); auto.
  { eapply (proj1 (proj2 (kids_evolves h2 _))); [exact Kd|exact Ev|auto]. }
  { intros x I. unfold o3. cbn [with_inputs with_funs fcons ffuns]. rewrite Km. apply K2, in_app_iff. now right. }
  { cbn [sheap st3 stored with_heap]. apply chain_fun with (o := o3); auto; [|].
    - assert (0 < List.length (sheap st)) by (apply nth_lt in Ng; lia). lia.
    - split; [|split]; unfold o3; cbn [with_inputs with_funs fcons ffuns].
      + intros x I. destruct (K1 x I) as (I1 & I2). rewrite Km. apply in_app_iff in I1. destruct I1 as [I1|I1].
        * rewrite Forall_forall in Pp. destruct (Pp x I1). auto.
        * destruct (block_decls _ _ _ _ _ _ Bok I1) as (B1 & _ & B3 & B4). auto.
      + intros x Nx I. rewrite Km in I. auto.
      + intros x v Hx. destruct (Forall2_combine _ _ _ _ Sa x v Hx) as (b & Hb & Sb). split; [|split].
        * apply K2, in_app_iff. left. eauto.
        * apply find_at_In in Hx. apply in_combine_r in Hx. rewrite Forall_forall in Gs. auto.
        * exists b. rewrite Lm, Hb. split; auto. eapply stored_agree; [|exact Sb]. exact G23. }
  { eapply world_older; [exact O4|exact W]. }
  { cbn [env_of app]. rewrite keys_combine by auto. exact Bok. }
  exists vs, (record_of st2). split; [exact Vs|]. split.
  { destruct d as [ps body]. cbn [fparams fbody] in *. eapply call_fun; [exact Fd|exact Lv|]. exact X. }
  split; auto. split; [|split; auto].
  - eapply older_keeps; [exact O4|]. rewrite <- Lc. exact Kp.
  - intros (d' & Fd' & Rd). rewrite Fd in Fd'. injection Fd' as <-. apply Rf. auto.
Qed.

Lemma record_same st st' : same_record st st' -> record_of st' = record_of st.
Proof. intros (A & B & _). unfold record_of. now rewrite A, B. Qed.
Lemma submit_heap st g st' : submit st g = Done st' -> sheap st' = sheap st /\ scoll st' = scoll st /\ exists g', g = Some g' /\ strace st' = strace st ++ [g'].
Proof. unfold submit. destruct g as [g|]; cbn; [|discriminate]. intros [= <-]. cbn. eauto. Qed.

Lemma element_name a l : name_ok a -> l <> [] -> name_ok (element a l).
Proof.
  intros [Ha _] Nl. unfold element. destruct a as [|c a]; [easy|]. split; [exact Ha|].
  destruct l as [|i l]; [easy|]. cbn [brackets]. intros I.
  assert (B : forall s, In "["%char (list_ascii_of_string (a ++ "[" ++ s))) by (intros s; clear; induction a as [|d a IH]; [now left|right; exact IH]).
  specialize (B (dec i ++ "]" ++ brackets l)%string). revert B.
  assert (R : forall y, In y reserved -> ~ In "["%char (list_ascii_of_string y)).
  { intros y Hy. cbn [reserved In] in Hy. repeat (destruct Hy as [<-|Hy]; [cbn; intros H; repeat (destruct H as [H|H]; [discriminate H|]); exact H|]). destruct Hy. }
  intros B. apply (R _ I). right. exact B.
Qed.
Lemma element_prefix a i l : prefix (a ++ "[") (element a (i :: l)) = true.
Proof.
  unfold element. cbn [brackets]. induction a as [|c a IH]; [cbn; now destruct (_ ++ _)%string|]. cbn. destruct (ascii_dec c c) as [_|N]; [exact IH|easy].
Qed.
(** The indices of an element *)
Lemma index_step ns n cur x es cs st name st' a m fr L : EXP n -> resolve_name (compile n cur) (Con (Tok TArrCall x) cs) st = Done (name, st') -> encs es cs ->
  chain ns L (sheap st) ((a, m) :: fr) -> sees (sheap st) cur a -> world (sheap st) ->
  Forall (exp_ok fs ns (keys (env_of ((a, m) :: fr)))) es -> Forall distinct_names (sstored st') ->
  exists l, idxs sym fs (env_of ((a, m) :: fr)) es l /\ name = element x l /\ older (sheap st) (sheap st') /\ record_of st' = record_of st /\ (es <> [] -> l <> []).
Proof.
  intros IH E En Ch Se W Ok D. unfold resolve_name in E. cbn [inputs output ident] in E. apply bind_inv in E. destruct E as ([s st1] & E & X). injection X as <- <-.
  enough (H : exists l, idxs sym fs (env_of ((a, m) :: fr)) es l /\ s = brackets l /\ older (sheap st) (sheap st1) /\ record_of st1 = record_of st).
  { destruct H as (l & A & -> & B & C). exists l. split; auto. split; auto. split; auto. split; auto. intros N. destruct es; [easy|]. inversion A; subst; discriminate. }
  revert cs En st s st1 E Ch Se W Ok D. induction es as [|e es IHes]; intros cs En st s st1 E Ch Se W Ok D; inversion En as [|? c ? cs' E1 E2]; subst; cbn [index_names] in E.
  - injection E as <- <-. exists []. split; [constructor|]. split; auto. split; [apply older_refl|reflexivity].
  - apply bind_inv in E. destruct E as ([r st2] & Er & E). destruct (strip (rvals r)) as [|f [|? ?]] eqn:Es; try discriminate.
    destruct (is_number f) eqn:Nf; [|discriminate]. apply bind_inv in E. destruct E as (z & Ez & E). apply get_inv in Ez.
    apply bind_inv in E. destruct E as ([s2 st3] & E3 & E). injection E as <- <-. inversion Ok as [|? ? Ok1 Ok2]; subst.
    assert (L3 : later st2 st3) by (eapply mono_index; [apply mono_compile|exact E3]).
    unfold aside in Er. apply bind_inv in Er. destruct Er as ([r' st2'] & Er & X). injection X as <- <-.
    assert (D2 : Forall distinct_names (sstored st2')) by (eapply later_forall in L3; [exact L3|exact D]).
    destruct (IH _ _ _ _ _ _ _ _ _ _ _ Er E1 Ch Se W Ok1 D2) as (V1 & G1 & _ & O1). cbn [sheap] in O1.
    destruct (IHes cs' E2 _ _ _ E3) as (l & Il & -> & O2 & R2); cbn [sheap]; auto.
    { eapply chain_older; eauto. } { eapply sees_older; eauto. } { eapply world_older; eauto. }
    exists (z :: l). rewrite Es in V1. split; [econstructor; [exact V1|cbn; eauto|exact Il]|]. split; [reflexivity|]. split; [eapply older_trans; eauto|exact R2].
Qed.

Lemma exp_step n : (forall k, k < n -> EXP k /\ BLOCK k) -> EXP n.
Proof.
  intros IH ns e c cur st r st' a m fr L E En Ch Se W Ok D. destruct n as [|n]; [discriminate|].
  destruct (IH n (Nat.lt_succ_diag_r n)) as [IHe IHb]. clear IH.
  destruct En as [s|x|s o e1 e2 c1 c2 En1 En2|s e c En|e c En|f es cs En|f es cs En].
  - rewrite step_number in E. apply bind_inv in E. destruct E as ([z b] & Ez & E). apply get_inv in Ez. injection E as <- <-. cbn [fst rvals rflag strip map].
    split; [constructor; cbn; eauto|]. split; [|split; [auto|apply older_refl]].
    split; [discriminate|]. split; [|cbn; lia]. constructor; auto. left. split; auto. cbn [ftok ident mult]. unfold string_to_field in Ez.
    destruct (set_string10 s) as [y|]; [|discriminate]. injection Ez as <- _. exists y. split; auto. now rewrite Zmod_mod.
  - cbn [exp_ok] in Ok. destruct (keys_find_in _ _ Ok) as [u Hu]. cbn [CircuitModel.compile output ttyp ident] in E.
    apply bind_inv in E. destruct E as (w & Ew & E). destruct (chain_names _ _ _ _ _ _ _ Ch Ok) as [Nx _].
    assert (Ew' := Ew). unfold find_fun in Ew'. destruct (find_sees _ _ _ _ _ _ _ (fun fo => blind_funs x fo Nx) Se Ew') as [n1 Ew1].
    destruct (chain_find_fun q fs ns L _ _ Ch a m fr x u n1 w eq_refl Hu Ew1) as (o & b & -> & Sb & Gu).
    apply bind_inv in E. destruct E as (ob & Eob & E). apply fetch_inv in Eob.
    assert (Sb' := Sb). destruct Sb' as (ob' & Nb & Cb & Ib & Mb). rewrite Eob in Nb. injection Nb as <-.
    assert (Hs : is_single_number u = match u with [y] => is_number y | _ => false end) by (destruct u as [|y [|]]; reflexivity).
    destruct (is_single_number u) eqn:Eu.
    + destruct u as [|y [|]]; try discriminate. rewrite <- Hs in Mb. destruct Mb as (Mb1 & Mb2 & _). rewrite Mb1 in E. injection E as <- <-. cbn [rvals rflag strip map fst].
      assert (Rd : read_as q [y] [Fac (Tok TNumber (fname ob)) (mult y)]) by (unfold read_as; rewrite Eu, Mb2; reflexivity).
      split; [econstructor; [exact Hu|exact Rd]|]. split; [|split; [auto|apply older_refl]]. eapply good_read; eauto.
    + assert (Mb' : fnum ob = None /\ vobj 0 (sheap st) b u).
      { destruct u as [|y [|]]; auto. rewrite <- Hs in Mb. exact Mb. }
      destruct Mb' as [Mn Mv]. rewrite Mn, Ib in E. apply bind_inv in E. destruct E as (k & Ek & E).
      unfold find_con in Ek. destruct (find_sees _ _ _ _ _ _ _ (fun fo => blind_cons x fo Nx) Se Ek) as [n2 Ek1].
      destruct (chain_find_con q fs ns L _ _ Ch a m fr x n2 k eq_refl Ok Ek1) as (o' & ->).
      destruct (call_vobj sort hash q u (runs_all sort hash q u ltac:(destruct Gu as (_ & Gu & _); exact Gu)) n cur x b o st r st') as (v & Rv & Rs & Fl & O & Sr); auto.
      { apply Nx. }
      rewrite Rs, strip_plain, (record_same _ _ Sr).
      assert (Rd : read_as q u v) by (unfold read_as; rewrite Eu; exact Rv).
      split; [econstructor; [exact Hu|exact Rd]|]. split; [|split; auto]. eapply good_read; eauto.
  - cbn [exp_ok] in Ok. destruct Ok as (Io & Ok1 & Ok2). rewrite step_bin in E by auto.
    apply bind_inv in E. destruct E as ([r1 st1] & E1 & E). apply bind_inv in E. destruct E as ([r2 st2] & E2 & E). apply bind_inv in E. destruct E as ([v st3] & E3 & E).
    injection E as <- <-. cbn [rvals rflag].
    assert (D2 : Forall distinct_names (sstored st2)) by (rewrite <- (operate_stored _ _ _ _ _ _ _ _ _ E3); exact D).
    assert (D1 : Forall distinct_names (sstored st1)) by (eapply later_forall; [eapply mono_compile; exact E2|exact D2]).
    destruct (IHe _ _ _ _ _ _ _ _ _ _ _ E1 En1 Ch Se W Ok1 D1) as (V1 & G1 & _ & O1).
    destruct (IHe _ _ _ _ _ _ _ _ _ _ _ E2 En2 (chain_older _ _ _ _ _ _ _ O1 Ch) (sees_older _ _ _ _ O1 Se) (world_older _ _ O1 W) Ok2 D2) as (V2 & G2 & _ & O2).
    destruct (operate_op _ _ _ _ _ _ _ _ _ G1 G2 Io E3) as (H1 & H2 & H3).
    split; [econstructor; eauto|]. split; [|split; [auto|rewrite H1; eapply older_trans; eauto]].
    cbn [dop LangSym.sym] in H3. eapply good_op; [exact G1|exact G2|exact H3].
  - rewrite step_wrap in E. eapply IHe; eauto.
  - cbn [exp_ok] in Ok. rewrite step_base in E. apply bind_inv in E. destruct E as ([r1 st1] & E1 & E). apply bind_inv in E. destruct E as ([c' f] & Ec & E). apply get_inv in Ec.
    apply bind_inv in E. destruct E as (st2 & Es & E). injection E as <- <-. cbn [rvals rflag].
    assert (Ss := submit_stored _ _ _ Es). destruct (submit_heap _ _ _ Es) as (H1 & H2 & g & Hg & H3). cbn [with_coll sheap scoll strace sstored] in *.
    assert (D1 : Forall distinct_names (sstored st1)) by (rewrite <- Ss; exact D).
    destruct (IHe _ _ _ _ _ _ _ _ _ _ _ E1 En Ch Se W Ok D1) as (V1 & G1 & _ & O1).
    assert (Sf : strip (map (fun y => (y, true)) f) = f) by (unfold strip; rewrite map_map; cbn; apply map_id). rewrite Sf.
    split; [|split; [eapply good_base; eauto|split; [auto|now rewrite H1]]].
    econstructor; [exact V1|]. cbn [dbase LangSym.sym record_of fst snd]. rewrite H2. split; [exact Ec|]. exists g. auto.
  - cbn [exp_ok] in Ok. destruct Ok as (Ca & Gi & Ok). apply exps_all in Ok.
    assert (Nr : ~ In f reserved).
    { destruct Ca as [_ (d & Fd & _)]. destruct (find_fun_ok _ _ Fd) as ([_ H] & _). exact H. }
    rewrite step_call in E by auto.
    destruct (call_step ns n cur f es cs st r st' a m fr L IHe IHb E En Ch Se W Ca Ok D) as (vs & s1 & Vs & Cs & Fl & O & G & Ne). specialize (Ne Gi).
    assert (Op : opt (strip (rvals r)) = Some (strip (rvals r))) by (destruct (strip (rvals r)); [easy|reflexivity]). rewrite Op in Cs.
    split; [econstructor; eauto|]. split; [|auto]. destruct G as [G|G]; [easy|exact G].
  - cbn [exp_ok] in Ok. destruct Ok as ((Na & Sc) & Nes & Ok). apply exps_all in Ok. rewrite step_index in E.
    apply bind_inv in E. destruct E as ([name st1] & E1 & E). apply bind_inv in E. destruct E as (k & Ek & E). destruct k as [[o con]|]; [|discriminate].
    apply bind_inv in E. destruct E as ([r2 st2] & E2 & E). injection E as <- <-. cbn [rvals rflag rfun].
    assert (D1 : Forall distinct_names (sstored st1)) by (eapply later_forall; [eapply mono_compile; exact E2|exact D]).
    destruct (index_step ns n cur f es cs st name st1 a m fr L IHe E1 En Ch Se W Ok D1) as (l & Il & -> & O1 & R1 & S1).
    assert (Nn : name_ok (element f l)) by (apply element_name; [exact Na|exact (S1 Nes)]).
    assert (Ch1 := chain_older _ _ _ _ _ _ _ O1 Ch). assert (Se1 := sees_older _ _ _ _ O1 Se). assert (W1 := world_older _ _ O1 W).
    unfold find_con in Ek. destruct (find_sees _ _ _ _ _ _ _ (fun fo => blind_cons _ fo Nn) Se1 Ek) as [n1 Ek1].
    assert (In1 : In (element f l) ns).
    { eapply chain_known; [|exact Ch1|reflexivity|exact Nn|exact Ek1]. destruct W1 as (g & Ng & (G1 & G2 & _) & _). intros g' Ng'. rewrite Ng in Ng'. injection Ng' as <-. auto. }
    assert (Iv : In (element f l) (keys (env_of ((a, m) :: fr)))).
    { destruct (Sc (element f l)) as [H|[H _]]; auto; [|easy]. destruct es as [|e1 es]; [easy|]. inversion Il; subst. apply element_prefix. }
    destruct (chain_find_con q fs ns L _ _ Ch1 a m fr _ n1 _ eq_refl Iv Ek1) as (o' & [= -> ->]).
    destruct (keys_find_in _ _ Iv) as [u Hu].
    assert (Fw : exists w, find_fun (sheap st1) cur (element f l) = Done w).
    { destruct n as [|n]; [discriminate|]. unfold call_of, leaf in E2. rewrite step_call in E2 by apply Nn. unfold user_call in E2. apply bind_inv in E2. destruct E2 as (w & Ew & _). eauto. }
    destruct Fw as [w Fw]. assert (Fw' := Fw). unfold find_fun in Fw'. destruct (find_sees _ _ _ _ _ _ _ (fun fo => blind_funs _ fo Nn) Se1 Fw') as [n2 Fw2].
    destruct (chain_find_fun q fs ns L _ _ Ch1 a m fr _ u n2 w eq_refl Hu Fw2) as (o2 & b & -> & Sb & Gu).
    assert (Mv : vobj 0 (sheap st1) b u).
    { destruct Sb as (ob & _ & _ & _ & Mb). destruct u as [|y [|]]; [apply Mb|destruct (is_number y); apply Mb|apply Mb]. }
    destruct (call_vobj sort hash q u (runs_all sort hash q u ltac:(destruct Gu as (_ & Gu & _); exact Gu)) n cur (element f l) b o2 st1 r2 st2) as (v & Rv & Rs & Fl & O & Sr); auto.
    { apply Nn. }
    rewrite Rs, strip_plain, (record_same _ _ Sr), R1.
    split; [econstructor; [exact Il|exact Hu|exact Rv]|]. split; [eapply good_reload; [|exact Rv]; apply Gu|]. split; auto. eapply older_trans; eauto.
Qed.

Lemma cond_step ns n cur cc c st b st' a m fr L : EXP n -> static_condition (compile n cur) cc st = Done (b, st') -> enc_cond c cc ->
  chain ns L (sheap st) ((a, m) :: fr) -> sees (sheap st) cur a -> world (sheap st) ->
  cond_ok fs ns (keys (env_of ((a, m) :: fr))) c -> Forall distinct_names (sstored st') ->
  test sym fs (env_of ((a, m) :: fr)) c b /\ older (sheap st) (sheap st') /\ record_of st' = record_of st.
Proof.
  intros IH E En Ch Se W (Ok1 & Ok2) D. destruct En as [s o e1 e2 c1 c2 En1 En2]. unfold static_condition in E. cbn [inputs output cleft cright] in *.
  apply bind_inv in E. destruct E as ([r1 st1] & E1 & E). apply bind_inv in E. destruct E as ([r2 st2] & E2 & E).
  assert (Eq : st2 = st' /\ dcmp sym o (strip (rvals r1)) (strip (rvals r2)) b).
  { destruct (strip (rvals r1)) as [|x [|? ?]]; try discriminate. destruct (strip (rvals r2)) as [|y [|? ?]]; try discriminate.
    destruct (is_number x) eqn:Ex; [|discriminate]. destruct (is_number y) eqn:Ey; [|discriminate]. cbn [andb] in E.
    apply bind_inv in E. destruct E as (t & Et & E). injection E as -> ->. split; auto. exists x, y. auto. }
  destruct Eq as [-> Dc]. clear E.
  assert (L2 : later st1 st') by (eapply mono_aside; [apply mono_compile|exact E2]).
  unfold aside in E1. apply bind_inv in E1. destruct E1 as ([r1' st1'] & E1 & X). injection X as <- <-.
  assert (D1 : Forall distinct_names (sstored st1')) by (eapply later_forall in L2; [exact L2|exact D]).
  destruct (IH _ _ _ _ _ _ _ _ _ _ _ E1 En1 Ch Se W Ok1 D1) as (V1 & G1 & _ & O1). cbn [sheap] in O1.
  unfold aside in E2. apply bind_inv in E2. destruct E2 as ([r2' st2'] & E2 & X). injection X as <- <-. cbn [sheap scoll strace sstored] in *.
  destruct (IH ns e2 c2 cur _ _ _ a m fr L E2 En2) as (V2 & G2 & _ & O2); cbn [sheap]; auto.
  { eapply chain_older; eauto. } { eapply sees_older; eauto. } { eapply world_older; eauto. }
  split; [econstructor; [exact V1|exact V2|exact Dc]|]. split; [eapply older_trans; eauto|reflexivity].
Qed.

Lemma env_pop (fr fr' : frames) (m : list (string * factors)) : keys (env_of fr') = keys (env_of fr) -> firstn (List.length (env_of fr)) (env_of fr' ++ m) = env_of fr'.
Proof.
  intros H. assert (Ln : List.length (env_of fr') = List.length (env_of fr)) by (unfold keys in H; rewrite <- (map_length fst), H; apply map_length).
  rewrite <- Ln. rewrite firstn_app, Nat.sub_diag. cbn. rewrite app_nil_r. apply firstn_all.
Qed.
Lemma chain_pop ns L h x y fr : chain ns L h (x :: y :: fr) -> chain ns L h (y :: fr).
Proof. inversion 1; subst; auto. Qed.
Lemma same_pop a m a' m' fr fr' : same_frames ((a, m) :: fr) ((a', m') :: fr') -> a' = a /\ keys m' = keys m /\ same_frames fr fr'.
Proof. intros [A B]. cbn [map fst snd] in A, B. injection A as A1 A2. injection B as B1 B2. split; auto. split; auto. split; auto. Qed.
Lemma same_push a m m' fr fr' : keys m' = keys m -> same_frames fr fr' -> same_frames ((a, m) :: fr) ((a, m') :: fr').
Proof. intros E [A B]. split; cbn [map fst snd]; congruence. Qed.
(** The frame of a block that begins. *)
Lemma chain_enter ns L h a m fr b ob c body inl ini ts : chain ns L h ((a, m) :: fr) -> nth_error h b = Some ob -> fctx ob = Some c -> sees h c a -> c < b ->
  tree h b (Some c) [] body -> ftasks ob = Some ts -> block_ok fs ns inl ini (keys (env_of ((a, m) :: fr))) body ->
  chain ns L h ((b, []) :: (a, m) :: fr) /\ kids h b body ts /\ (forall x, In x (decls body) -> In x (keys (fcons ob)) /\ In x (keys (ffuns ob))).
Proof.
  intros Ch N C Se Lt T Et Bok. inversion T as [? ? ? ? o2 ts2 N2 C2 I2 T2 K1 K2 K3 Kd]; subst. rewrite N in N2. injection N2 as <-. rewrite Et in T2. injection T2 as <-.
  cbn [app] in *. split; [|split; auto]. eapply chain_block; [exact Ch|exact N|exact C|exact Se|exact Lt| |].
  - split; [|split; [exact K3|]].
    + intros x I. destruct (K1 x I) as (I1 & I2'). destruct (block_decls _ _ _ _ _ _ Bok I1) as (B1 & _ & B3 & B4). auto.
    + intros x f. cbn. discriminate.
  - intros x I. destruct (K1 x I) as (I1 & _). destruct (block_decls _ _ _ _ _ _ Bok I1) as (_ & B2 & _). exact B2.
Qed.
Lemma overload_step ns n s lhs l x ce e st r st' a m fr L o : ttyp lhs <> TArrCall -> ident lhs = x -> EXP n ->
  compile (S n) a (Con (Tok TOverload s) [Con lhs l; ce]) st = Done (r, st') -> enc e ce -> nth_error (sheap st) a = Some o ->
  chain ns L (sheap st) ((a, m) :: fr) -> world (sheap st) -> exp_ok fs ns (keys (env_of ((a, m) :: fr))) e -> Forall distinct_names (sstored st') ->
  exists st1 b w h' b', ev sym fs (env_of ((a, m) :: fr)) (record_of st) e (strip (rvals r)) (record_of st') /\ good (strip (rvals r)) /\ rflag r = false /\
    older (sheap st) (sheap st1) /\ find_fun (sheap st1) a x = Done (Some (w, b')) /\ older (sheap st1) h' /\ stored_at h' b (strip (rvals r)) /\
    set_fun h' w x b = Done (sheap st').
Proof.
  intros Nt Ix IH E En N Ch W Ok D. cbn [CircuitModel.compile output ttyp ident inputs] in E.
  apply bind_inv in E. destruct E as ([name st0] & E0 & E).
  assert (X0 : name = x /\ st0 = st) by (revert E0; destruct (ttyp lhs); try easy; intros [= <- <-]; auto). destruct X0 as [-> ->]. clear E0.
  apply bind_inv in E. destruct E as ([r1 st1] & E1 & E). apply bind_inv in E. destruct E as (w & Ew & E). destruct w as [[w b']|]; [|discriminate].
  set (f := strip (rvals r1)) in *.
  assert (L1 : later st1 st').
  { destruct f as [|f0 f1].
    - destruct (rfun r1).
      + apply bind_inv in E. destruct E as (h & _ & E). injection E as _ <-. now apply later_eq.
      + apply bind_inv in E. destruct E as ([h a0] & _ & E). apply bind_inv in E. destruct E as (h1 & _ & E). injection E as _ <-. eexists. reflexivity.
    - apply bind_inv in E. destruct E as ([h a0] & _ & E). apply bind_inv in E. destruct E as (h1 & _ & E). injection E as _ <-. eexists. reflexivity. }
  destruct (IH _ _ _ _ _ _ _ _ _ _ _ E1 En Ch (or_introl eq_refl) W Ok (later_forall _ _ L1 D)) as (V & G & _ & O).
  assert (E' : ('(h1, a) <- factors_function q (sheap st1) f ;; h <- set_fun h1 w x a ;; Done (Ret (rvals r1) false None, stored (with_heap st1 h) [f])) = Done (r, st')).
  { fold f in G. destruct f; [destruct G as [G _]; easy|exact E]. }
  clear E. apply bind_inv in E'. destruct E' as ([h1 b] & Ef & E). apply bind_inv in E. destruct E as (h2 & Es & E). injection E as <- <-. cbn [rvals rflag].
  cbn [stored with_heap sstored] in D. apply Forall_app in D. destruct D as [_ D]. inversion D as [|? ? Df _]; subst x0 l0.
  destruct (stored_new _ _ _ _ _ Ef G Df) as (O1 & S1). exists st1, b, w, h1, b'. split; [exact V|]. split; [exact G|]. repeat (split; auto).
Qed.
Lemma stmt_step n : (forall k, k < n -> EXP k /\ BLOCK k /\ STMT k) -> STMT n.
Proof.
  intros IH ns t c a m fr st r st' L inl ini o E No K Dk Ch W Ok D. destruct n as [|n]; [discriminate|].
  destruct (IH n (Nat.lt_succ_diag_r n)) as (IHe & IHb & IHs).
  destruct K as [a x e ce s l En|a x e ce s l En|a x es cs e ce s Ens En|a e1 e2 c1 c2 En1 En2|a f es cs En|a s e c En|a o1 name b c cc s1 l x e ce body Ec En N1 Lk Nk Nr Lt Tb
                |a o1 name f fo name2 b c cc body ctx Ec N1 Lk Nk Lt Nf Cf Kf Ff Nn Tf Lt2 X Tb].
  - (* declaration *)
    cbn [stmt_ok] in Ok. destruct Ok as [Oke (Nx & Nv & _ & _)].
    destruct (overload_step ns n s (Tok TVarDecl x) l x ce e st r st' a m fr L o ltac:(discriminate) eq_refl IHe E En No Ch W Oke D) as (st1 & b & w & h' & b' & V & G & Fl & O1 & Fw & O2 & Sb & Se).
    assert (O : older (sheap st) h') by (eapply older_trans; eauto).
    destruct (chain_declare q fs ns L h' a m fr x (strip (rvals r)) b (S (List.length (sheap st1))) (w, b') (sheap st') o) as (Kp & Ch'); auto.
    { eapply chain_older; eauto. } { eapply older_nth; eauto. } { apply Dk. now left. } { apply Dk. now left. }
    { destruct (chain_head _ _ _ _ _ _ _ _ Ch) as (o' & No' & Fo). rewrite No in No'. injection No' as <-.
      assert (If : In x (keys (ffuns o))) by (apply Dk; now left). destruct (keys_find_in _ _ If) as [b1 Eb].
      unfold find_fun in Fw. cbn [find_in] in Fw |- *. unfold fetch in *. rewrite (older_nth _ _ _ _ O1 No) in Fw. rewrite (older_nth _ _ _ _ O No). cbn [get bind] in *.
      rewrite lookup_find_at, Eb in *. exact Fw. }
    exists (m ++ [(x, strip (rvals r))]), fr.
    assert (Op : opt (strip (rvals r)) = Some (strip (rvals r))) by (destruct G as [G _]; destruct (strip (rvals r)); [easy|reflexivity]).
    rewrite Fl. split; [rewrite Op; cbn [env_of]; rewrite app_assoc; constructor; exact V|]. split; [exact Ch'|]. split; [apply same_frames_refl|].
    split; [rewrite keys_app; reflexivity|]. split; [eapply keeps_trans; [apply keeps_older; exact O|exact Kp]|].
    split; [now right|]. split; [discriminate|]. split; [auto|]. discriminate.
  - (* assignment *)
    cbn [stmt_ok] in Ok. destruct Ok as [Oke Iv].
    destruct (overload_step ns n s (Tok TIdent x) l x ce e st r st' a m fr L o ltac:(discriminate) eq_refl IHe E En No Ch W Oke D) as (st1 & b & w & h' & b' & V & G & Fl & O1 & Fw & O2 & Sb & Se).
    assert (O : older (sheap st) h') by (eapply older_trans; eauto).
    assert (Ch2 : chain ns L h' ((a, m) :: fr)) by (eapply chain_older; eauto).
    assert (Fw2 : exists n2 b2, find_in n2 ffuns h' (Some a) x = Done (Some (w, b2))).
    { unfold find_fun in Fw. exists (S (List.length (sheap st1))), b'. revert Fw. generalize (S (List.length (sheap st1))). generalize (Some a).
      intros cur0 k. revert cur0. induction k as [|k IHk]; intros [c0|]; cbn [find_in]; try discriminate.
      unfold fetch. destruct (nth_error (sheap st1) c0) as [oc|] eqn:Ec0; [|discriminate]. rewrite (older_nth _ _ _ _ O2 Ec0). cbn [get bind].
      destruct (lookup x (ffuns oc)); auto. }
    destruct Fw2 as (n2 & b2 & Fw2).
    destruct (chain_assign q fs ns L h' _ Ch2 a m fr x (strip (rvals r)) b n2 w b2 (sheap st') eq_refl Iv Fw2 G Sb Se) as (Kp & _ & fr2 & Ch3 & Sf & Ev).
    destruct fr2 as [|[a2 m2] fr2]; [inversion Ch3|]. destruct (same_pop _ _ _ _ _ _ Sf) as (-> & Km & Sf').
    exists m2, fr2.
    assert (Op : opt (strip (rvals r)) = Some (strip (rvals r))) by (destruct G as [G _]; destruct (strip (rvals r)); [easy|reflexivity]).
    rewrite Fl, Ev, Op. split; [constructor; [exact V|apply find_at_in; exact Iv]|]. split; [exact Ch3|]. split; [exact Sf'|].
    split; [cbn; rewrite app_nil_r; exact Km|]. split; [eapply keeps_trans; [apply keeps_older; exact O|exact Kp]|].
    split; [now right|]. split; [discriminate|]. split; [auto|]. discriminate.
  - (* assignment to an element *)
    cbn [stmt_ok] in Ok. destruct Ok as ((Na & Sc) & Nes & Oks & Oke).
    cbn [CircuitModel.compile output ttyp] in E. apply bind_inv in E. destruct E as ([name st0] & E0 & E).
    change (compile (S n) a (Con (Tok TOverload s) [Con (Tok TVarDecl name) []; ce]) st0 = Done (r, st')) in E.
    assert (D0 : Forall distinct_names (sstored st0)) by (eapply later_forall; [eapply mono_compile; exact E|exact D]).
    destruct (index_step ns n a x es cs st name st0 a m fr L IHe E0 Ens Ch (or_introl eq_refl) W Oks D0) as (l & Il & -> & O0 & R0 & S0).
    assert (Nn : name_ok (element x l)) by (apply element_name; [exact Na|exact (S0 Nes)]).
    assert (Ch0 := chain_older _ _ _ _ _ _ _ O0 Ch). assert (W0 := world_older _ _ O0 W).
    destruct (overload_step ns n s (Tok TVarDecl (element x l)) [] (element x l) ce e st0 r st' a m fr L o ltac:(discriminate) eq_refl IHe E En (older_nth _ _ _ _ O0 No) Ch0 W0 Oke D) as (st1 & b & w & h' & b' & V & G & Fl & O1 & Fw & O2 & Sb & Se).
    assert (O : older (sheap st) h') by (eapply older_trans; [exact O0|]; eapply older_trans; eauto).
    assert (Ch2 : chain ns L h' ((a, m) :: fr)) by (eapply chain_older; eauto).
    assert (Fw2 : exists n2 b2, find_in n2 ffuns h' (Some a) (element x l) = Done (Some (w, b2))).
    { unfold find_fun in Fw. exists (S (List.length (sheap st1))), b'. revert Fw. generalize (S (List.length (sheap st1))). generalize (Some a).
      intros cur0 k. revert cur0. induction k as [|k IHk]; intros [c0|]; cbn [find_in]; try discriminate.
      unfold fetch. destruct (nth_error (sheap st1) c0) as [oc|] eqn:Ec0; [|discriminate]. rewrite (older_nth _ _ _ _ O2 Ec0). cbn [get bind].
      destruct (lookup (element x l) (ffuns oc)); auto. }
    destruct Fw2 as (n2 & b2 & Fw2).
    assert (Iv : In (element x l) (keys (env_of ((a, m) :: fr)))).
    { destruct (Sc (element x l)) as [H|[H1 H2]]; auto.
      - destruct es as [|e1 es]; [easy|]. inversion Il; subst. apply element_prefix.
      - exfalso. assert (W2 := world_older _ _ O W). destruct (chain_known_fun q fs ns L h' _ ltac:(destruct W2 as (g & Ng & (_ & G2 & G3) & _); intros g' Ng'; rewrite Ng in Ng'; injection Ng' as <-; auto) Ch2 a m fr (element x l) n2 (w, b2) eq_refl Nn Fw2); auto. }
    destruct (chain_assign q fs ns L h' _ Ch2 a m fr (element x l) (strip (rvals r)) b n2 w b2 (sheap st') eq_refl Iv Fw2 G Sb Se) as (Kp & _ & fr2 & Ch3 & Sf & Ev).
    destruct fr2 as [|[a2 m2] fr2]; [inversion Ch3|]. destruct (same_pop _ _ _ _ _ _ Sf) as (-> & Km & Sf').
    exists m2, fr2.
    assert (Op : opt (strip (rvals r)) = Some (strip (rvals r))) by (destruct G as [G _]; destruct (strip (rvals r)); [easy|reflexivity]).
    rewrite R0 in V. rewrite Fl, Ev, Op. split; [constructor; [exact Il|exact V|apply find_at_in; exact Iv]|]. split; [exact Ch3|]. split; [exact Sf'|].
    split; [cbn; rewrite app_nil_r; exact Km|]. split; [eapply keeps_trans; [apply keeps_older; exact O|exact Kp]|].
    split; [now right|]. split; [discriminate|]. split; [auto|]. discriminate.
  - (* equal *)
    cbn [stmt_ok] in Ok. destruct Ok as [Ok1 Ok2]. rewrite step_equal in E.
    apply bind_inv in E. destruct E as ([r1 st1] & E1 & E). apply bind_inv in E. destruct E as ([r2 st2] & E2 & E). apply bind_inv in E. destruct E as (c' & Ec & E). apply get_inv in Ec.
    apply bind_inv in E. destruct E as (st3 & Es & E). injection E as <- <-. cbn [nothing rvals rflag strip map opt].
    assert (Ss := submit_stored _ _ _ Es). destruct (submit_heap _ _ _ Es) as (H1 & H2 & g & Hg & H3). cbn [with_coll sheap scoll strace sstored] in *.
    assert (D2 : Forall distinct_names (sstored st2)) by (rewrite <- Ss; exact D).
    assert (D1 : Forall distinct_names (sstored st1)) by (eapply later_forall; [eapply mono_compile; exact E2|exact D2]).
    destruct (IHe _ _ _ _ _ _ _ _ _ _ _ E1 En1 Ch (or_introl eq_refl) W Ok1 D1) as (V1 & G1 & _ & O1).
    destruct (IHe _ _ _ _ _ _ _ _ _ _ _ E2 En2 (chain_older _ _ _ _ _ _ _ O1 Ch) (or_introl eq_refl) (world_older _ _ O1 W) Ok2 D2) as (V2 & G2 & _ & O2).
    assert (O : older (sheap st) (sheap st3)) by (rewrite H1; eapply older_trans; eauto).
    exists m, fr. split; [|split; [eapply chain_older; eauto|split; [apply same_frames_refl|split; [cbn; now rewrite app_nil_r|split; [now apply keeps_older|]]]]].
    + econstructor; [exact V1|exact V2|]. cbn [dequal LangSym.sym record_of fst snd]. rewrite H2. split; [exact Ec|]. exists g. auto.
    + split; [now left|]. split; [discriminate|]. split; [auto|]. discriminate.
  - (* call *)
    cbn [stmt_ok] in Ok. destruct Ok as [Ca Oks].
    assert (Nr : ~ In f reserved).
    { destruct Ca as [_ (d & Fd & _)]. destruct (find_fun_ok _ _ Fd) as ([_ H] & _). exact H. }
    rewrite step_call in E by auto.
    destruct (call_step ns n a f es cs st r st' a m fr L IHe IHb E En Ch (or_introl eq_refl) W Ca Oks D) as (vs & s1 & Vs & Cs & Fl & O & G & _).
    exists m, fr. rewrite Fl. split; [econstructor; eauto|]. split; [eapply chain_older; eauto|]. split; [apply same_frames_refl|].
    split; [cbn; now rewrite app_nil_r|]. split; [now apply keeps_older|]. split; [exact G|]. split; [discriminate|]. split; [auto|]. discriminate.
  - (* return *)
    cbn [stmt_ok] in Ok. destruct Ok as [Oke Il]. rewrite step_return in E. apply bind_inv in E. destruct E as ([r1 st1] & E1 & E). injection E as <- <-. cbn [rvals rflag].
    destruct (IHe _ _ _ _ _ _ _ _ _ _ _ E1 En Ch (or_introl eq_refl) W Oke D) as (V & G & _ & O).
    assert (Op : opt (strip (rvals r1)) = Some (strip (rvals r1))) by (destruct G as [G _]; destruct (strip (rvals r1)); [easy|reflexivity]).
    exists m, fr. rewrite Op. split; [constructor; exact V|]. split; [eapply chain_older; eauto|]. split; [apply same_frames_refl|].
    split; [cbn; now rewrite app_nil_r|]. split; [now apply keeps_older|]. split; [now right|]. split; [intros _; apply G|]. split; [congruence|]. auto.
  - (* for *)
    assert (Ok0 := Ok). cbn [stmt_ok] in Ok. destruct Ok as (Okc & Iv & Oke & Okb). apply stmt_block in Okb.
    rewrite No in N1. injection N1 as <-.
    cbn [CircuitModel.compile output ttyp ident inputs] in E. apply bind_inv in E. destruct E as ([go st1] & E1 & E).
    destruct go.
    2: { injection E as <- <-. cbn [nothing rvals rflag strip map opt].
         destruct (cond_step _ _ _ _ _ _ _ _ _ _ _ _ IHe E1 Ec Ch (or_introl eq_refl) W Okc D) as (Te & O & Rc).
         exists m, fr. rewrite Rc. split; [now constructor|]. split; [eapply chain_older; eauto|]. split; [apply same_frames_refl|].
         split; [cbn; now rewrite app_nil_r|]. split; [now apply keeps_older|]. split; [now left|]. split; [discriminate|]. split; [auto|]. discriminate. }
    apply bind_inv in E. destruct E as ([r2 st2] & E2 & E).
    assert (L2 : later st2 st').
    { destruct (rflag r2); [injection E as _ <-; apply later_refl|]. apply bind_inv in E. destruct E as ([r3 st3] & E3 & E).
      eapply later_trans; [eapply mono_compile; exact E3|eapply mono_compile; exact E]. }
    assert (D2 := later_forall _ _ L2 D).
    assert (D1 : Forall distinct_names (sstored st1)) by (eapply later_forall; [eapply mono_compile; exact E2|exact D2]).
    destruct (cond_step _ _ _ _ _ _ _ _ _ _ _ _ IHe E1 Ec Ch (or_introl eq_refl) W Okc D1) as (Te & O1 & Rc).
    (* the body, in a copy of its object *)
    destruct n as [|n]; [discriminate|]. destruct (IH n) as (_ & IHb' & _); [lia|]. unfold call_of, leaf in E2. rewrite step_call in E2 by auto. unfold user_call in E2.
    apply bind_inv in E2. destruct E2 as (w & Ew & E2).
    rewrite (find_fun_here _ _ _ _ _ _ (older_nth _ _ _ _ O1 No) Lk Ew) in E2.
    apply bind_inv in E2. destruct E2 as ([h1 k] & Ek & E2). unfold flat_copy in Ek. apply bind_inv in Ek. destruct Ek as (ob & Eob & Ek). apply fetch_inv in Eob.
    assert (Tb1 : tree (sheap st1) b (Some a) [] body) by (eapply tree_keeps; [apply (keeps_older 0); exact O1|exact Tb]).
    assert (Ctx : fctx ob = Some a) by (inversion Tb1; subst; congruence). rewrite Ctx in Ek.
    assert (Tk := copy_tree_at _ _ _ _ _ _ _ _ _ Tb1 Ek). destruct (flat_copy_shape _ _ _ _ _ _ Ek) as (O2 & Ek1 & Lk1 & _).
    cbn [comp_all bind argument_functions with_heap sheap] in E2. apply bind_inv in E2. destruct E2 as ([h3 ready] & Eg & E2).
    inversion Tk as [? ? ? ? ok ts Nk1 Ck Ik Tsk K1 K2 K3 Kd]; subst a0 ctx ps B.
    unfold gets_loaded_with in Eg. unfold fetch in Eg. rewrite Nk1 in Eg. cbn [get bind List.length Nat.ltb Nat.leb] in Eg. rewrite Ik in Eg.
    cbn [get bind List.length Nat.eqb load_inputs] in Eg. rewrite Nk1 in Eg. cbn [get bind] in Eg. rewrite with_inputs_nil in Eg by auto. rewrite store_same in Eg by auto.
    injection Eg as <- <-. apply bind_inv in E2. destruct E2 as (ob' & Eo' & E2). apply fetch_inv in Eo'. rewrite Nk1 in Eo'. injection Eo' as <-.
    apply bind_inv in E2. destruct E2 as (ts' & Et & E2). apply get_inv in Et. rewrite Tsk in Et. injection Et as <-. apply bind_inv in E2. destruct E2 as ([r5 st5] & E5 & E2). injection E2 as <- <-.
    set (stb := stored (with_heap (with_heap st1 h1) h1) []) in *.
    assert (O3 : older (sheap st) h1) by (eapply older_trans; eauto).
    assert (Lak : a < k) by (apply nth_lt in No; apply older_length in O1; lia).
    destruct (chain_enter ns L h1 a m fr k ok a body true ini ts (chain_older _ _ _ _ _ _ _ O3 Ch) Nk1 Ck (or_introl eq_refl) Lak Tk Tsk Okb) as (Chk & Kk & Dkk).
    assert (Rb : record_of stb = record_of st) by (unfold stb, stored, with_heap, record_of; cbn; unfold record_of in Rc; exact Rc).
    destruct (IHb' ns body ts k [] ((a, m) :: fr) stb r5 st5 L true ini ok E5 Nk1 Kk Dkk Chk) as (mk & frk & Xb & Ch5 & Sf5 & Kp5 & G5 & Rf5 & Rl5 & _); auto.
    { cbn [sheap stb stored with_heap]. eapply world_older; [exact O3|exact W]. }
    { change (env_of ((k, []) :: (a, m) :: fr)) with (env_of ((a, m) :: fr) ++ []). rewrite app_nil_r. exact Okb. }
    cbn [rflag] in E. assert (Z5 : strip (rvals r5) = []).
    { destruct (strip (rvals r5)) eqn:Es; auto. assert (rflag r5 = true) by (apply Rf5; discriminate). rewrite Rl5 in H by auto. discriminate. }
    rewrite Z5 in Xb. cbn [opt] in Xb. clear G5 Rf5 Rl5. change (sheap stb) with h1 in *.
    destruct frk as [|[a5 m5] fr5]; [inversion Ch5; subst; destruct Sf5 as [Sf5 _]; discriminate Sf5|].
    destruct (same_pop _ _ _ _ _ _ Sf5) as (-> & Km5 & Sf5'). apply chain_pop in Ch5.
    change (env_of ((k, []) :: (a, m) :: fr)) with (env_of ((a, m) :: fr) ++ []) in Xb. rewrite app_nil_r, Rb in Xb.
    change (env_of ((k, mk) :: (a, m5) :: fr5)) with (env_of ((a, m5) :: fr5) ++ mk) in Xb.
    assert (Ke5 := same_frames_keys _ _ Sf5).
    (* the assignment *)
    apply bind_inv in E. destruct E as ([r6 st6] & E6 & E).
    assert (L6 : later st6 st') by (eapply mono_compile; exact E). assert (D6 := later_forall _ _ L6 D).
    assert (K05 : keeps L (sheap st) (sheap st5)) by (eapply keeps_trans; [apply keeps_older; exact O3|exact Kp5]).
    assert (No5 : exists o5, nth_error (sheap st5) a = Some o5 /\ fcons o5 = fcons o).
    { destruct K05 as [_ K05]. destruct (K05 a o No) as (o5 & N5 & (_ & _ & _ & _ & Fc & _) & _). eauto. }
    destruct No5 as (o5 & N5 & Fc5).
    destruct (IHs ns (Assign x e) _ a m5 fr5 st5 r6 st6 L inl ini o5 E6 N5 (kid_assign _ _ _ _ _ s1 l En)) as (m6 & fr6 & X6 & Ch6 & Sf6 & Km6 & Kp6 & G6 & _ & _ & _); auto.
    { intros y []. }
    { eapply world_keeps; [exact K05|exact W]. }
    { cbn [stmt_ok]. rewrite Ke5. auto. }
    assert (K06 := keeps_trans _ _ _ _ K05 Kp6).
    assert (No6 : exists o6, nth_error (sheap st6) a = Some o6 /\ fcons o6 = fcons o).
    { destruct K06 as [_ K06]. destruct (K06 a o No) as (o6 & N6 & (_ & _ & _ & _ & Fc & _) & _). eauto. }
    destruct No6 as (o6 & N6 & Fc6).
    assert (Kid6 : kid (sheap st6) a (For c x e body) (Con (Tok TFor name) [cc; Con (Tok TOverload s1) [Con (Tok TIdent x) l; ce]])).
    { eapply (proj2 (proj2 (kids_evolves (sheap st) (sheap st6)))); [|eapply keeps_evolves; exact K06|cbn; auto]. eapply kid_for; eauto. }
    cbn in Km6. rewrite app_nil_r in Km6.
    assert (Sf06 : same_frames ((a, m) :: fr) ((a, m6) :: fr6)) by (apply same_push; [congruence|eapply same_frames_trans; eauto]).
    assert (Ke6 := same_frames_keys _ _ Sf06).
    destruct (IHs ns (For c x e body) _ a m6 fr6 st6 r st' L inl ini o6 E N6 Kid6) as (m7 & fr7 & X7 & Ch7 & Sf7 & Km7 & Kp7 & G7 & Rf7 & Rl7 & _); auto.
    { intros y []. }
    { eapply world_keeps; [exact K06|exact W]. }
    { rewrite Ke6. exact Ok0. }
    exists m7, fr7. cbn in Km7. rewrite app_nil_r in Km7.
    assert (Fin : opt (strip (rvals r)) = None /\ rflag r = false) by (inversion X7; subst; auto). destruct Fin as [Fin1 Fin2]. rewrite Fin1, Fin2 in *.
    split.
    { inversion X6 as [|? ? ? ? v6 ? V6 F6 HX HY HZ HW| | | | | | | | | |]; subst.
      eapply xs_for; [exact Te|exact Xb|rewrite env_pop by exact Ke5; exact V6|apply find_at_in; exact Iv|].
      rewrite env_pop by exact Ke5. 
 exact (eq_ind_r (fun z => xs sym fs z (record_of st6) (For c x e body) (env_of ((a, m7) :: fr7)) None false (record_of st')) X7 HW). }
    split; [exact Ch7|]. split; [eapply same_frames_trans; [eapply same_frames_trans; [exact Sf5'|exact Sf6]|exact Sf7]|].
    split; [cbn; rewrite app_nil_r; congruence|]. split; [eapply keeps_trans; [exact K06|exact Kp7]|]. split; [exact G7|]. split; [discriminate|]. split; [auto|]. discriminate.
  - (* if *)
    cbn [stmt_ok] in Ok. destruct Ok as (_ & Okc & Okb). apply stmt_block in Okb.
    rewrite No in N1. injection N1 as <-.
    unfold leaf in E. cbn [CircuitModel.compile output ttyp ident inputs] in E. apply bind_inv in E. destruct E as (w & Ew & E).
    rewrite (find_fun_here _ _ _ _ _ _ No Lk Ew) in E. unfold fetch in E at 1. rewrite Nf in E. cbn [get bind] in E. rewrite Tf in E. cbn [get bind run_tasks] in E.
    apply bind_inv in E. destruct E as ([r1 st1] & E1 & E).
    assert (Er : r = r1 /\ rflag r1 = true /\ st' = st1 \/ r = nothing /\ rflag r1 = false /\ st' = st1).
    { destruct (rflag r1) eqn:Fl; injection E as <- <-; [left|right; auto]. destruct r1; cbn in *; subst; auto. }
    assert (st' = st1) by (destruct Er as [(_ & _ & H)|(_ & _ & H)]; exact H). subst st1.
    destruct n as [|n]; [discriminate|]. destruct (IH n) as (IHe' & _ & _); [lia|]. cbn [CircuitModel.compile output ttyp ident inputs] in E1.
    apply bind_inv in E1. destruct E1 as ([go st1] & E2 & E1).
    assert (Bl : blind (ffuns fo)).
    { intros y Ny. rewrite Ff. cbn. destruct (String.eqb_spec y name2) as [->|_]; [easy|reflexivity]. }
    assert (Sf : sees (sheap st) f a) by (right; split; auto; exists fo; auto).
    destruct go.
    2: { injection E1 as <- <-. cbn [rflag nothing] in Er. assert (r = nothing) by (destruct Er as [(H1 & H2 & _)|(H1 & _)]; auto; discriminate). subst r.
         cbn [nothing rvals rflag strip map opt].
         destruct (cond_step _ _ _ _ _ _ _ _ _ _ _ _ IHe' E2 Ec Ch Sf W Okc D) as (Te & O & Rc).
         exists m, fr. rewrite Rc. split; [now constructor|]. split; [eapply chain_older; eauto|]. split; [apply same_frames_refl|].
         split; [cbn; now rewrite app_nil_r|]. split; [now apply keeps_older|]. split; [now left|]. split; [discriminate|]. split; [auto|]. discriminate. }
    assert (D1 : Forall distinct_names (sstored st1)) by (eapply later_forall; [eapply mono_compile; exact E1|exact D]).
    destruct (cond_step _ _ _ _ _ _ _ _ _ _ _ _ IHe' E2 Ec Ch Sf W Okc D1) as (Te & O & Rc).
    destruct n as [|n]; [discriminate|]. destruct (IH n) as (_ & IHb' & _); [lia|]. unfold leaf in E1. cbn [CircuitModel.compile output ttyp ident inputs] in E1.
    apply bind_inv in E1. destruct E1 as (w2 & Ew2 & E1).
    assert (Lk2 : lookup name2 (ffuns fo) = Some b) by (rewrite Ff; cbn; now rewrite String.eqb_refl).
    rewrite (find_fun_here _ _ _ _ _ _ (older_nth _ _ _ _ O Nf) Lk2 Ew2) in E1.
    assert (Tb1 : tree (sheap st1) b (Some ctx) [] body) by (eapply tree_keeps; [apply (keeps_older 0); exact O|exact Tb]).
    inversion Tb1 as [? ? ? ? ob ts Nb Cb Ib Tsb K1 K2 K3 Kd]; subst a0 ctx0 ps B.
    unfold fetch in E1. rewrite Nb in E1. cbn [get bind] in E1. rewrite Tsb in E1. cbn [get bind] in E1.
    assert (Sc : sees (sheap st1) ctx a) by (destruct X as [->| ->]; [now left|eapply sees_older; eauto]).
    assert (Lcb : ctx < b) by (destruct X as [->| ->]; lia).
    destruct (chain_enter ns L (sheap st1) a m fr b ob ctx body inl true ts (chain_older _ _ _ _ _ _ _ O Ch) Nb Cb Sc Lcb Tb1 Tsb Okb) as (Chb & Kb & Dkb).
    destruct (IHb' ns body ts b [] ((a, m) :: fr) st1 r1 st' L inl true ob E1 Nb Kb Dkb Chb) as (mk & frk & Xb & Ch5 & Sf5 & Kp5 & G5 & Rf5 & Rl5 & _); auto.
    { eapply world_older; [exact O|exact W]. }
    { change (env_of ((b, []) :: (a, m) :: fr)) with (env_of ((a, m) :: fr) ++ []). rewrite app_nil_r. exact Okb. }
    destruct frk as [|[a5 m5] fr5]; [inversion Ch5; subst; destruct Sf5 as [Sf5 _]; discriminate Sf5|].
    destruct (same_pop _ _ _ _ _ _ Sf5) as (-> & Km5 & Sf5'). apply chain_pop in Ch5.
    change (env_of ((b, []) :: (a, m) :: fr)) with (env_of ((a, m) :: fr) ++ []) in Xb. rewrite app_nil_r, Rc in Xb.
    change (env_of ((b, mk) :: (a, m5) :: fr5)) with (env_of ((a, m5) :: fr5) ++ mk) in Xb.
    assert (Ke5 := same_frames_keys _ _ Sf5).
    assert (Same : strip (rvals r) = strip (rvals r1) /\ rflag r = rflag r1).
    { destruct Er as [(-> & _ & _)|(-> & Fl & _)]; auto. cbn [nothing rvals rflag strip map]. rewrite Fl. split; auto.
      destruct (strip (rvals r1)) eqn:Es; auto. assert (rflag r1 = true) by (apply Rf5; discriminate). congruence. }
    destruct Same as [Sm1 Sm2]. rewrite Sm1, Sm2. exists m5, fr5.
    assert (Fl : rflag r1 = match opt (strip (rvals r1)) with Some _ => true | None => false end).
    { destruct (strip (rvals r1)) eqn:Es; cbn [opt].
      - destruct (rflag r1) eqn:Fl; auto. exfalso. apply (proj1 Rf5 eq_refl). reflexivity.
      - apply Rf5. discriminate. }
    split; [rewrite Fl; rewrite <- (env_pop _ _ mk Ke5); apply xs_if; [exact Te|exact Xb]|]. split; [exact Ch5|]. split; [exact Sf5'|].
    split; [cbn; rewrite app_nil_r; exact Km5|]. split; [eapply keeps_trans; [apply keeps_older; exact O|exact Kp5]|].
    split; [exact G5|]. split; [apply Rf5|]. split; [exact Rl5|]. discriminate.
Qed.

Lemma decls_cons t B : decls (t :: B) = decls [t] ++ decls B.
Proof using Type. unfold decls. cbn. now rewrite app_nil_r. Qed.
Lemma next_keys a m m1 fr fr1 t : same_frames fr fr1 -> keys m1 = keys m ++ decls [t] ->
  keys (env_of ((a, m1) :: fr1)) = match t with Decl x _ => keys (env_of ((a, m) :: fr)) ++ [x] | _ => keys (env_of ((a, m) :: fr)) end.
Proof.
  intros Sf Km. cbn [env_of]. rewrite !keys_app, Km, (same_frames_keys _ _ Sf). destruct t; cbn; rewrite ?app_nil_r; auto. now rewrite app_assoc.
Qed.
Lemma block_step n : STMT n -> BLOCK n.
Proof.
  intros IH ns B. induction B as [|t B IHB]; intros ts a m fr st r st' L inl ini o E No K Dk Ch W Ok D.
  - inversion K; subst. injection E as <- <-. exists m, fr. cbn [nothing rvals rflag strip map opt].
    split; [constructor|]. split; auto. split; [apply same_frames_refl|]. split; [apply keeps_refl|]. split; [now left|]. split; [split; [discriminate|easy]|].
    split; auto. intros (e & []).
  - destruct Ok as [Ok1 Ok2]. inversion K as [|? x ? ? K2|? x ? ? K2|? ? c ? ts' K1 K2]; subst.
    + destruct (IHB ts a m fr st r st' L inl ini o E No K2) as (m' & fr' & X & Ch' & Sf & Kp & G & Rf & Rl & Rr); auto.
      exists m', fr'. split; [eapply xb_cons; [apply xs_public|exact X]|]. split; auto. split; auto. split; auto. split; auto. split; auto. split; auto.
      intros (e & [I|I]); [discriminate|]. apply Rr. now exists e.
    + destruct (IHB ts a m fr st r st' L inl ini o E No K2) as (m' & fr' & X & Ch' & Sf & Kp & G & Rf & Rl & Rr); auto.
      exists m', fr'. split; [eapply xb_cons; [apply xs_array|exact X]|]. split; auto. split; auto. split; auto. split; auto. split; auto. split; auto.
      intros (e & [I|I]); [discriminate|]. apply Rr. now exists e.
    + cbn [run_tasks] in E. apply bind_inv in E. destruct E as ([r1 st1] & E1 & E).
      assert (D1 : Forall distinct_names (sstored st1)).
      { eapply later_forall; [|exact D]. destruct (rflag r1); [injection E as _ <-; apply later_refl|]. eapply mono_tasks; [apply mono_compile|exact E]. }
      destruct (IH ns t c a m fr st r1 st1 L inl ini o E1 No K1) as (m1 & fr1 & X1 & Ch1 & Sf1 & Km1 & Kp1 & G1 & Rf1 & Rl1 & Rr1); auto.
      { intros x Hx. apply Dk. rewrite decls_cons. apply in_app_iff. now left. }
      destruct (rflag r1) eqn:Fl.
      * injection E as <- <-. cbn [rvals rflag]. exists m1, fr1. split; [now apply xb_return|]. split; auto. split; auto. split; auto. split; auto.
        split; [split; auto|]. split; auto.
      * assert (N1 : exists o1, nth_error (sheap st1) a = Some o1 /\ fcons o1 = fcons o /\ keys (ffuns o1) = keys (ffuns o)).
        { destruct Kp1 as [_ Kp1]. destruct (Kp1 a o No) as (o1 & N1 & (_ & _ & _ & _ & Fc & Fk & _) & _). eauto. }
        destruct N1 as (o1 & N1 & Fc1 & Fk1).
        destruct (IHB ts' a m1 fr1 st1 r st' L inl ini o1 E N1) as (m' & fr' & X & Ch' & Sf & Kp & G & Rf & Rl & Rr); auto.
        { eapply kids_keeps; eauto. }
        { intros x Hx. rewrite Fc1, Fk1. apply Dk. rewrite decls_cons. apply in_app_iff. now right. }
        { eapply world_keeps; eauto. }
        { rewrite (next_keys _ _ _ _ _ _ Sf1 Km1). destruct t; exact Ok2. }
        exists m', fr'. split; [eapply xb_cons; [exact X1|exact X]|]. split; auto. split; [eapply same_frames_trans; eauto|]. split; [eapply keeps_trans; eauto|].
        split; auto. split; auto. split; auto. intros (e & [->|I]); [|apply Rr; now exists e]. specialize (Rr1 e eq_refl). discriminate.
Qed.
Theorem simulates n : EXP n /\ BLOCK n /\ STMT n.
Proof.
  induction n as [n IH] using lt_wf_ind.
  assert (S : STMT n) by (apply stmt_step; exact IH). split; [|split; [now apply block_step|exact S]].
  apply exp_step. intros k Lk. destruct (IH k Lk) as (A & B & _). auto.
Qed.

Lemma complete_done st f st' : complete sort hash st f = Done st' ->
  sheap st' = sheap st /\ complete sort hash (St [] (scoll st) (strace st) []) f = Done (St [] (scoll st') (strace st') []).
Proof.
  intros E. unfold complete in *. cbn [scoll]. apply bind_inv in E. destruct E as (c & Ec & E). apply get_inv in Ec. rewrite Ec. cbn [get bind].
  assert (X : forall i, submit (with_coll st c) (Some (Gate GAdd i f [] [] (wire i 1) false no_token)) = Done st' ->
    sheap st' = sheap st /\ submit (with_coll (St [] (scoll st) (strace st) []) c) (Some (Gate GAdd i f [] [] (wire i 1) false no_token)) = Done (St [] (scoll st') (strace st') [])).
  { intros i Es. destruct (submit_heap _ _ _ Es) as (H1 & H2 & g & [= <-] & H3). unfold submit. cbn. cbn in H1, H2, H3. rewrite H1, H2, H3. auto. }
  assert (Y : forall s, (i <- get (list_signature hash f) ;; submit (with_coll st c) (Some (Gate GAdd i f [] [] (wire i 1) false no_token))) = Done s -> s = st' ->
    sheap st' = sheap st /\ (i <- get (list_signature hash f) ;; submit (with_coll (St [] (scoll st) (strace st) []) c) (Some (Gate GAdd i f [] [] (wire i 1) false no_token))) = Done (St [] (scoll st') (strace st') [])).
  { intros s Es ->. apply bind_inv in Es. destruct Es as (i & Ei & Es). rewrite Ei. cbn [bind]. now apply X. }
  destruct f as [|x [|y f]].
  - injection E as <-. cbn. auto.
  - destruct (is_number x || (mult x =? 1)%Z); [injection E as <-; cbn; auto|eapply Y; eauto].
  - eapply Y; eauto.
Qed.
Lemma execute_later n a : forall ts st r st', execute_tasks sort hash (compile n a) ts st = Done (r, st') -> later st st'.
Proof.
  induction ts as [|t ts IH]; intros st r st' E; cbn [execute_tasks] in E; [injection E as _ <-; apply later_refl|].
  apply bind_inv in E. destruct E as ([r1 st1] & E1 & E). apply bind_inv in E. destruct E as (st2 & E2 & E).
  apply mono_compile in E1. assert (L2 : later st1 st2) by (apply later_eq; now rewrite (complete_stored _ _ _ _ _ E2)).
  eapply later_trans; [exact E1|]. eapply later_trans; [exact L2|]. destruct (rflag r1); [injection E as _ <-; apply later_refl|eauto].
Qed.
Lemma ddone_none s : ddone sym s None s.
Proof. destruct s as [c tr]. reflexivity. Qed.
Lemma main_step n : forall ns B ts a m fr st r st' L o,
  execute_tasks sort hash (compile n a) ts st = Done (r, st') -> nth_error (sheap st) a = Some o -> kids (sheap st) a B ts ->
  (forall x, In x (decls B) -> In x (keys (fcons o)) /\ In x (keys (ffuns o))) ->
  chain ns L (sheap st) ((a, m) :: fr) -> world (sheap st) -> block_ok fs ns false false (keys (env_of ((a, m) :: fr))) B -> Forall distinct_names (sstored st') ->
  mb sym fs (env_of ((a, m) :: fr)) (record_of st) B (opt (strip (rvals r))) (record_of st') /\ (strip (rvals r) = [] \/ good (strip (rvals r))) /\
  (returns B -> strip (rvals r) <> []).
Proof.
  destruct (simulates n) as (_ & _ & IH). intros ns. induction B as [|t B IHB]; intros ts a m fr st r st' L o E No K Dk Ch W Ok D.
  - inversion K; subst. injection E as <- <-. cbn [nothing rvals rflag strip map opt]. split; [constructor|]. split; [now left|]. intros (e & []).
  - destruct Ok as [Ok1 Ok2]. inversion K as [|? x ? ? K2|? x ? ? K2|? ? c ? ts' K1 K2]; subst.
    + destruct (IHB ts a m fr st r st' L o E No K2) as (X & G & Rr); auto.
      split; [eapply mb_cons; [apply xs_public|apply ddone_none|exact X]|]. split; auto.
      intros (e & [I|I]); [discriminate|]. apply Rr. now exists e.
    + destruct (IHB ts a m fr st r st' L o E No K2) as (X & G & Rr); auto.
      split; [eapply mb_cons; [apply xs_array|apply ddone_none|exact X]|]. split; auto.
      intros (e & [I|I]); [discriminate|]. apply Rr. now exists e.
    + cbn [execute_tasks] in E. apply bind_inv in E. destruct E as ([r1 st1] & E1 & E). apply bind_inv in E. destruct E as (st2 & E2 & E).
      assert (D2 : Forall distinct_names (sstored st2)).
      { eapply later_forall; [|exact D]. destruct (rflag r1); [injection E as _ <-; apply later_refl|]. eapply execute_later; exact E. }
      assert (D1 : Forall distinct_names (sstored st1)) by (rewrite <- (complete_stored _ _ _ _ _ E2); exact D2).
      destruct (IH ns t c a m fr st r1 st1 L false false o E1 No K1) as (m1 & fr1 & X1 & Ch1 & Sf1 & Km1 & Kp1 & G1 & Rf1 & Rl1 & Rr1); auto.
      { intros x Hx. apply Dk. rewrite decls_cons. apply in_app_iff. now left. }
      destruct (complete_done _ _ _ E2) as (H2 & C2).
      assert (Dn : ddone sym (record_of st1) (opt (strip (rvals r1))) (record_of st2)).
      { cbn [ddone LangSym.sym]. unfold record_of. cbn [fst snd]. destruct (strip (rvals r1)); exact C2. }
      destruct (rflag r1) eqn:Fl.
      * injection E as <- <-. split; [eapply mb_return; [exact X1|exact Dn]|]. split; auto.
      * rewrite <- H2 in Ch1, Kp1.
        assert (N1 : exists o1, nth_error (sheap st2) a = Some o1 /\ fcons o1 = fcons o /\ keys (ffuns o1) = keys (ffuns o)).
        { destruct Kp1 as [_ Kp1]. destruct (Kp1 a o No) as (o1 & N1 & (_ & _ & _ & _ & Fc & Fk & _) & _). eauto. }
        destruct N1 as (o1 & N1 & Fc1 & Fk1).
        destruct (IHB ts' a m1 fr1 st2 r st' L o1 E N1) as (X & G & Rr); auto.
        { eapply kids_keeps; eauto. }
        { intros x Hx. rewrite Fc1, Fk1. apply Dk. rewrite decls_cons. apply in_app_iff. now right. }
        { eapply world_keeps; eauto. }
        { rewrite (next_keys _ _ _ _ _ _ Sf1 Km1). destruct t; exact Ok2. }
        split; [eapply mb_cons; [exact X1|exact Dn|exact X]|]. split; auto. intros (e & [->|I]); [|apply Rr; now exists e]. specialize (Rr1 e eq_refl). discriminate.
Qed.
End P.
