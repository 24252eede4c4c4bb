(** A program whose meaning over factor lists is defined is compiled: the heap built by preCompile can be copied. *)
Require Import ZArith Lia Bool Ascii String List.
Require Import Verif.FqModel Verif.FactorModel Verif.ExprModel Verif.ParserModel Verif.CircuitModel Verif.LangSpec Verif.LangHeap Verif.LangSym Verif.LangTree Verif.LangScope Verif.LangLater Verif.LangRun Verif.LangBuild Verif.LangTotal.
Import ListNotations.
Local Open Scope string_scope.
Local Open Scope list_scope.
Local Open Scope nat_scope.

(** Objects refer to younger ones only. *)
Definition up (h : heap) : Prop := forall a o, nth_error h a = Some o -> (exists ts, ftasks o = Some ts) /\ forall x b, In (x, b) (ffuns o) -> a < b < List.length h.
Lemma up_cp h : up h -> Cp h.
Proof.
  intros U. assert (H : forall k a, List.length h - a <= k -> a < List.length h -> cpa 0 h a).
  { induction k as [|k IH]; intros a Lk La; [lia|]. destruct (nth_error h a) as [o|] eqn:N; [|apply nth_error_None in N; lia].
    destruct (U a o N) as ((ts & T) & B). econstructor; [lia|exact N|exact T|]. intros x b I. destruct (B x b I). apply IH; lia. }
  intros a La. eapply H; eauto.
Qed.
Lemma up_store h a o o' ts : up h -> nth_error h a = Some o -> ftasks o' = Some ts ->
  (forall x b, In (x, b) (ffuns o') -> (exists y, In (y, b) (ffuns o)) \/ a < b < List.length h) -> up (store h a o') /\ List.length (store h a o') = List.length h.
Proof.
  intros U N T B. split; [|apply store_length]. intros c oc Nc. rewrite store_length. destruct (Nat.eq_dec a c) as [<-|Ne].
  - rewrite nth_store_eq in Nc by (eapply nth_lt; eauto). injection Nc as <-. split; [eauto|]. intros x b I. destruct (B x b I) as [[y J]|J]; auto. destruct (U a o N) as (_ & Ua). eauto.
  - rewrite nth_store_ne in Nc by auto. exact (U c oc Nc).
Qed.
Lemma up_new h o ts : up h -> ftasks o = Some ts -> ffuns o = [] -> up (h ++ [o]).
Proof.
  intros U T F c oc Nc. rewrite app_length. cbn [List.length]. destruct (Nat.lt_ge_cases c (List.length h)) as [L|L].
  - rewrite nth_error_app1 in Nc by auto. destruct (U c oc Nc) as (A & B). split; auto. intros x b I. specialize (B x b I). lia.
  - rewrite nth_error_app2 in Nc by auto. destruct (c - List.length h) as [|k]; [|destruct k; discriminate]. injection Nc as <-. split; [eauto|]. rewrite F. intros x b [].
Qed.
Lemma up_fun h a x b h' : up h -> a < b < List.length h -> set_fun h a x b = Done h' -> up h' /\ List.length h' = List.length h.
Proof.
  intros U L E. unfold set_fun in E. apply bind_inv in E. destruct E as (o & Eo & E). apply fetch_inv in Eo. injection E as <-. destruct (U a o Eo) as ((ts & T) & _).
  eapply up_store; [exact U|exact Eo|exact T|]. cbn [with_funs ffuns]. intros y d I. apply in_set_at in I. destruct I as [->|I]; eauto.
Qed.
Lemma up_con h a x c h' : up h -> set_con h a x c = Done h' -> up h' /\ List.length h' = List.length h.
Proof.
  intros U E. unfold set_con in E. apply bind_inv in E. destruct E as (o & Eo & E). apply fetch_inv in Eo. injection E as <-. destruct (U a o Eo) as ((ts & T) & _).
  eapply up_store; [exact U|exact Eo|exact T|]. cbn [with_cons ffuns]. eauto.
Qed.
Lemma up_task h a c h' : up h -> add_task h a c = Done h' -> up h' /\ List.length h' = List.length h.
Proof.
  intros U E. unfold add_task in E. apply bind_inv in E. destruct E as (o & Eo & E). apply fetch_inv in Eo. apply bind_inv in E. destruct E as (t & Et & E). injection E as <-.
  eapply up_store; [exact U|exact Eo|reflexivity|]. cbn [with_tasks ffuns]. eauto.
Qed.
Lemma named_lt h a s name : block_name h a s = Done name -> a < List.length h.
Proof. unfold block_name. intros E. apply bind_inv in E. destruct E as (o & Eo & _). apply fetch_inv in Eo. eapply nth_lt; eauto. Qed.
Lemma up_args : forall args h f h', up h -> register_args h f args = Done h' -> up h' /\ List.length h <= List.length h'.
Proof.
  induction args as [|a args IH]; intros h f h' U E; cbn [register_args] in E; [injection E as <-; auto|].
  apply bind_inv in E. destruct E as (o & Eo & E). apply fetch_inv in Eo. destruct (lookup _ (ffuns o)); [discriminate|]. cbn [alloc] in E.
  apply bind_inv in E. destruct E as (h2 & E2 & E). destruct (U f o Eo) as ((ts & T) & _). assert (Lf := nth_lt _ _ _ Eo).
  set (oa := FObj _ _ _ _ _ _ _) in E2. destruct (up_store h f o oa ts U Eo T) as (U1 & L1); [cbn; eauto|].
  apply up_fun in E2; [|eapply up_new; [exact U1|reflexivity|reflexivity]|rewrite app_length, L1; cbn; lia]. destruct E2 as (U2 & L2).
  rewrite app_length, L1 in L2. cbn in L2. destruct (IH _ _ _ U2 E) as (U3 & L3). split; auto. lia.
Qed.
Lemma up_declare h cur c h' : up h -> declare h cur c = Done h' -> up h'.
Proof.
  intros U E. unfold declare in E. apply bind_inv in E. destruct E as (o & Eo & E). apply fetch_inv in Eo. destruct (lookup _ (ffuns o)); [discriminate|]. cbn [alloc] in E.
  apply bind_inv in E. destruct E as (h2 & E2 & E). apply bind_inv in E. destruct E as (h3 & E3 & E).
  apply up_fun in E2; [|eapply up_new; [exact U|reflexivity|reflexivity]|rewrite app_length; apply nth_lt in Eo; cbn; lia]. destruct E2 as (U2 & _).
  apply up_con in E3; [|exact U2]. destruct E3 as (U3 & _). destruct (inputs c); [discriminate|]. apply up_task in E; [|exact U3]. apply E.
Qed.
Lemma up_elements : forall es h cur x i h', up h -> declare_elements h cur x i es = Done h' -> up h'.
Proof.
  induction es as [|e es IH]; intros h cur x i h' U E; cbn [declare_elements] in E; [injection E as <-; auto|].
  apply bind_inv in E. destruct E as (h1 & E1 & E). apply bind_inv in E. destruct E as (? & _ & E). apply up_declare in E1; eauto.
Qed.
Lemma up_precompile : forall n h cur cs h', up h -> precompile n h cur cs = Done h' -> up h'.
Proof.
  induction n as [|n IH]; intros h cur cs h' U E; [discriminate|]. cbn [precompile] in E. destruct cs as [|c rest]; [injection E as <-; auto|].
  assert (Go : forall h1, up h1 -> (_ <- check_all h1 cur (inputs c) ;; precompile n h1 cur rest) = Done h' -> up h').
  { intros h1 U1 E1. apply bind_inv in E1. destruct E1 as (? & _ & E1). eauto. }
  assert (Tk : (h1 <- add_task h cur c ;; _ <- check_all h1 cur (inputs c) ;; precompile n h1 cur rest) = Done h' -> up h').
  { intros E1. apply bind_inv in E1. destruct E1 as (h1 & Ea & E1). apply up_task in Ea; [|exact U]. apply (Go h1); [apply Ea|exact E1]. }
  destruct (ttyp (output c)) eqn:Ty; try exact (Go h U E); try exact (Tk E); clear Tk.
  all: lazymatch type of Ty with
  | _ = TPublic => apply bind_inv in E; destruct E as (ob & _ & E); destruct (String.eqb _ _); [exact (Go h U E)|discriminate]
  | _ = TVarDecl => apply bind_inv in E; destruct E as (h1 & E1 & E); apply up_declare in E1; [exact (Go h1 E1 E)|exact U]
  | _ = TArrDecl => apply bind_inv in E; destruct E as (ob & Eo & E); destruct (lookup _ (fcons ob)); [discriminate|]; apply bind_inv in E; destruct E as (h1 & E1 & E);
      apply bind_inv in E; destruct E as (h2 & E2 & E); apply up_con in E1; [|exact U]; destruct E1 as [U1 _]; apply up_elements in E2; [exact (Go h2 E2 E)|exact U1]
  | _ => clear Go
  end.
  all: lazymatch type of Ty with
  | _ = TFuncDef =>
      apply bind_inv in E; destruct E as ((inside & outside) & _ & E); apply bind_inv in E; destruct E as (ob & Eo & E); apply fetch_inv in Eo; destruct (lookup _ (ffuns ob)); [discriminate|];
      destruct (lookup _ (fcons ob)); [discriminate|]; apply bind_inv in E; destruct E as ((h1 & f) & E1 & E); apply bind_inv in E; destruct E as (h2 & E2 & E);
      apply bind_inv in E; destruct E as (h3 & E3 & E); unfold register_function in E1
  | _ = TFor =>
      apply bind_inv in E; destruct E as ((inside & outside) & _ & E); apply bind_inv in E; destruct E as (name & En & E); apply named_lt in En; cbn [alloc] in E;
      apply bind_inv in E; destruct E as (h2 & E2 & E); apply bind_inv in E; destruct E as (h3 & E3 & E); apply bind_inv in E; destruct E as (h4 & E4 & E);
      apply up_fun in E2; [|eapply up_new; [exact U|reflexivity|reflexivity]|rewrite app_length; cbn; lia]; destruct E2 as [U2 _];
      apply up_task in E3; [|exact U2]; destruct E3 as [U3 _]; apply IH in E4; [|exact U3]; apply IH in E; [|exact E4]; exact E
  | _ = TElse =>
      apply bind_inv in E; destruct E as ((inside & outside) & _ & E); apply bind_inv in E; destruct E as (name & En & E); apply named_lt in En; cbn [alloc] in E;
      apply bind_inv in E; destruct E as (h2 & E2 & E); apply bind_inv in E; destruct E as (h3 & E3 & E); apply bind_inv in E; destruct E as (h4 & E4 & E);
      apply up_fun in E2; [|eapply up_new; [exact U|reflexivity|reflexivity]|rewrite app_length; cbn; lia]; destruct E2 as [U2 _];
      apply up_task in E3; [|exact U2]; destruct E3 as [U3 _]; apply IH in E4; [|exact U3]; apply IH in E; [|exact E4]; exact E
  | _ => idtac
  end.
  - cbn [alloc] in E1. apply bind_inv in E1. destruct E1 as (g & Eg & E1). injection E1 as <- <-.
    apply up_args in Eg; [|eapply up_new; [exact U|reflexivity|reflexivity]]. destruct Eg as (Ug & Lg). rewrite app_length in Lg. cbn in Lg. apply nth_lt in Eo.
    apply up_fun in E2; [|exact Ug|lia]. destruct E2 as [U2 _]. apply IH in E3; [|exact U2]. apply IH in E; [|exact E3]. exact E.
  - apply bind_inv in E. destruct E as ((chn & outside) & _ & E). apply bind_inv in E. destruct E as (name & En & E). apply named_lt in En. cbn [alloc] in E.
    apply bind_inv in E. destruct E as (h2 & E2 & E). apply bind_inv in E. destruct E as (h3 & E3 & E). apply bind_inv in E. destruct E as ((first & others) & _ & E).
    apply bind_inv in E. destruct E as (name2 & _ & E). apply bind_inv in E. destruct E as (h5 & E5 & E). apply bind_inv in E. destruct E as (h6 & E6 & E).
    apply bind_inv in E. destruct E as (h7 & E7 & E). apply bind_inv in E. destruct E as (h8 & E8 & E).
    apply up_fun in E2; [|eapply up_new; [exact U|reflexivity|reflexivity]|rewrite app_length; cbn; lia]. destruct E2 as [U2 L2].
    apply up_task in E3; [|exact U2]. destruct E3 as [U3 L3]. rewrite app_length in L2. cbn in L2.
    apply up_fun in E5; [|eapply up_new; [exact U3|reflexivity|reflexivity]|rewrite app_length; cbn; lia]. destruct E5 as [U5 L5].
    apply up_task in E6; [|exact U5]. destruct E6 as [U6 L6]. apply IH in E7; [|exact U6]. apply IH in E8; [|exact E7]. apply IH in E; [|exact E8]. exact E.
Qed.

Section R.
Variable sort : factors -> factors.
Variable hash : string -> Z.
Variable q : Z.
Variable fs : defs.
Hypothesis Pok : prog_ok fs.

Theorem runs_total cs n p ins body r s1 : enc_prog fs cs -> build sort hash q n cs = Done p -> find_at "main" fs = Some (Fun ins body) ->
  mb (strict sort hash q) fs (map (fun x => (x, argument x)) ins) (Coll [] [], []) body r s1 ->
  lands (fun n' => run_program sort hash q n' p) (fun pr => opt (strip (rvals (fst pr))) = r /\ (scoll (snd pr), strace (snd pr)) = s1 /\ Forall distinct_names (sstored (snd pr))).
Proof.
  intros En Eb Fm X. unfold build in Eb. apply bind_inv in Eb. destruct Eb as (pub & _ & Eb). apply bind_inv in Eb. destruct Eb as (h & Ep & Eb).
  apply bind_inv in Eb. destruct Eb as (g & Eg & Eb). apply fetch_inv in Eg. injection Eb as <-.
  destruct Pok as [_ Pf].
  destruct (pre_prog fs fs cs En n [new_circuit "global" None] h _ Ep eq_refl eq_refl eq_refl Pf) as (g' & Ng & (Cg & Cx) & _ & _ & On & P). rewrite Eg in Ng. injection Ng as <-.
  assert (W : world fs h).
  { exists g. split; auto. split; [split; auto; split; auto; intros x _ Ix; apply keys_find_in in Ix; destruct Ix as [b Ib]; rewrite <- lookup_find_at in Ib; destruct (On x b Ib) as [Z0|Z0]; [discriminate Z0|exact Z0]|]. intros f d Ff _. destruct (P f d Ff) as (a & La & _ & Fa). exists a. split; auto. apply (Fa h). intros x ob _ Nx. exact Nx. }
  destruct (P _ _ Fm) as (m & Em & Ga & Fa). cbn [List.length] in Ga.
  destruct (Fa h ltac:(intros x ob _ Nx; exact Nx)) as [T Ps]. cbn [fparams fbody] in *. clear Fa.
  destruct (find_fun_ok fs Pok _ _ Fm) as (Nm & Nd & Pp & ns & Ins & Bok). cbn [fparams fbody] in *.
  inversion T as [? ? ? ? o ts Eo C1 I1 Et K1 K2 K3 Kd]; subst.
  set (m0 := map (fun x => (x, argument x)) (finputs o)) in *.
  assert (Ke : keys m0 = finputs o) by apply keys_map.
  assert (Ch : chain q fs ns 0 h [(m, m0)]).
  { eapply chain_fun; [lia|lia|exact Eo|exact C1|]. split; [|split; [exact K3|]].
    - intros x Ix. destruct (K1 x Ix) as (J & J2).
      assert (Hx : name_ok x /\ find_at x fs = None /\ In x ns).
      { apply in_app_iff in J. destruct J as [J|J]; [rewrite Forall_forall in Pp; destruct (Pp x J); auto|]. eapply block_decls in Bok; [|exact J]. destruct Bok as (B1 & _ & B3 & B4). auto. }
      destruct Hx as (H1 & H2 & H3). auto.
    - intros x f Fx. apply find_map in Fx. destruct Fx as [Ix ->]. split; [apply K2, in_app_iff; now left|].
      rewrite Forall_forall in Pp. destruct (Pp x Ix) as [[Nx Nr] _]. split.
      + split; [discriminate|]. split; [|cbn; lia]. constructor; auto. right. cbn. split; auto. split; auto. intros ->. exact Nx.
      + destruct (Ps x Ix) as (o' & b & No' & Lb & Nb). rewrite Eo in No'. injection No' as <-. exists b. split; auto. now apply arg_stored. }
  unfold run_program. cbn [pmain pheap]. eapply lands_pure; [rewrite Em; reflexivity|]. eapply lands_pure; [unfold fetch; rewrite Eo; reflexivity|]. eapply lands_pure; [rewrite Et; reflexivity|].
  eapply lands_mono; [eapply (main_total sort hash q fs Pok _ _ _ _ _ X ns ts (St h (Coll [] []) [] []) m m0 [] 0 o Eo Kd)|]; auto.
  { intros x Ix. apply K2, in_app_iff. now right. }
  { exact (eq_ind_r (fun k => block_ok fs ns false false k body) Bok Ke). }
  { split; [|constructor]. cbn [sheap]. apply up_cp. eapply up_precompile; [|exact Ep]. intros [|[|?]] o0 N0; try discriminate. injection N0 as <-. split; [eexists; reflexivity|]. intros x b []. }
  intros [rr st] n1 ((_ & Q1) & R1 & R2) _. cbn [fst snd] in *. auto.
Qed.
End R.
