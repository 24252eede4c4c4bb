(** What preCompile builds from an encoded program. *)
Require Import ZArith Lia Bool Ascii String List Wf_nat DecimalString.
Require Import Verif.FqModel Verif.FactorModel Verif.ParserModel Verif.CircuitModel Verif.LangSpec Verif.LangHeap Verif.LangSym Verif.LangTree Verif.LangScope Verif.LangRun.
Import ListNotations.
Local Open Scope string_scope.
Local Open Scope list_scope.
Local Open Scope nat_scope.

(** ** Names of blocks *)
Definition blk (k : nat) (s : string) : string := (dec (Z.of_nat k) ++ s)%string.
Fixpoint take_digits (s : string) : string :=
  match s with
  | String c s' => match digit_of c with Some _ => String c (take_digits s') | None => "" end
  | "" => ""
  end.
Lemma take_uint d c s : digit_of c = None -> take_digits (NilEmpty.string_of_uint d ++ String c s) = NilEmpty.string_of_uint d.
Proof. intros H. induction d; cbn; [now rewrite H|..]; now rewrite IHd. Qed.
Lemma dec_nat k : exists c d, dec (Z.of_nat k) = String c (NilEmpty.string_of_uint d) /\ digit_of c <> None.
Proof.
  unfold dec. assert (H : exists d, Z.to_int (Z.of_nat k) = Decimal.Pos d) by (destruct k; cbn; eauto). destruct H as [d ->]. cbn [NilZero.string_of_int].
  destruct d; cbn; [exists "0"%char, Decimal.Nil; split; [reflexivity|discriminate]|..]; (eexists _, d; split; [reflexivity|discriminate]).
Qed.
Lemma take_dec k c s : digit_of c = None -> take_digits (dec (Z.of_nat k) ++ String c s) = dec (Z.of_nat k).
Proof. intros H. destruct (dec_nat k) as (c0 & d & -> & N). cbn. destruct (digit_of c0); [|easy]. now rewrite take_uint. Qed.
Lemma dec_nat_inj k k' : dec (Z.of_nat k) = dec (Z.of_nat k') -> k = k'.
Proof. intros E. assert (A := set_string_dec (Z.of_nat k)). rewrite E, set_string_dec in A. injection A as A. lia. Qed.
Lemma blk_inj k k' s s' : In s ["for"; "if"] -> In s' ["for"; "if"] -> blk k s = blk k' s' -> k = k'.
Proof.
  intros I I' E. apply dec_nat_inj. unfold blk in E.
  assert (X : forall k s, In s ["for"; "if"] -> take_digits (dec (Z.of_nat k) ++ s) = dec (Z.of_nat k)).
  { intros k0 s0 [<-|[<-|[]]]; now apply take_dec. }
  rewrite <- (X k s I), <- (X k' s' I'), E. reflexivity.
Qed.
Lemma blk_name k s : ~ name_ok (blk k s).
Proof.
  unfold blk. destruct (dec_nat k) as (c & d & -> & N). cbn [append]. intros [H _]. unfold letter in H. unfold digit_of in N.
  revert H N. destruct c as [[] [] [] [] [] [] [] []]; cbn; try discriminate; easy.
Qed.
Lemma blk_reserved k s : ~ In (blk k s) reserved.
Proof.
  unfold blk. destruct (dec_nat k) as (c & d & -> & N). cbn [append reserved In]. intros I.
  repeat (destruct I as [I|I]; [injection I as I _; subst c; now apply N|]). destruct I.
Qed.

(** ** Splitting encoded blocks *)
Scheme enc_stmt_mut := Minimality for enc_stmt Sort Prop with enc_block_mut := Minimality for enc_block Sort Prop.
Combined Scheme enc_blocks_ind from enc_stmt_mut, enc_block_mut.
Definition pushed (cs : list ctree) (r : option (list ctree * list ctree)) : option (list ctree * list ctree) :=
  match r with Some (i, o) => Some (cs ++ i, o) | None => None end.
Lemma pushed_app a b r : pushed a (pushed b r) = pushed (a ++ b) r.
Proof. destruct r as [[i o]|]; cbn; [now rewrite app_assoc|reflexivity]. Qed.
Lemma split_step d c k : (1 <= match ttyp (output c) with TElse | TFor | TFuncDef | TIf => d + 1 | TNestedEnd => d - 1 | _ => d end)%Z ->
  split_at_nested_end d (c :: k) = pushed [c] (split_at_nested_end (match ttyp (output c) with TElse | TFor | TFuncDef | TIf => d + 1 | TNestedEnd => d - 1 | _ => d end)%Z k).
Proof.
  intros H. cbn [split_at_nested_end]. destruct (_ =? 0)%Z eqn:E; [apply Z.eqb_eq in E; lia|]. unfold pushed. destruct (split_at_nested_end _ k) as [[i o]|]; reflexivity.
Qed.
Lemma split_block :
  (forall t cs, enc_stmt t cs -> forall d k, (1 <= d)%Z -> split_at_nested_end d (cs ++ k) = pushed cs (split_at_nested_end d k)) /\
  (forall B cs, enc_block B cs -> forall d k, (1 <= d)%Z -> split_at_nested_end d (cs ++ k) = pushed cs (split_at_nested_end d k)).
Proof.
  apply enc_blocks_ind.
  - intros. cbn [app]. rewrite split_step; cbn [output ttyp]; auto.
  - intros. cbn [app]. rewrite split_step; cbn [output ttyp]; auto.
  - intros. cbn [app]. rewrite split_step; cbn [output ttyp]; auto.
  - intros. cbn [app]. rewrite split_step; cbn [output ttyp]; auto.
  - intros. cbn [app]. rewrite split_step; cbn [output ttyp]; auto.
  - intros s c cc s1 x e ce body cs fin _ _ _ IH [F1 _] d k Hd. cbn [app]. rewrite split_step by (cbn [output ttyp]; lia). cbn [output ttyp].
    rewrite <- app_assoc, IH by lia. cbn [app]. rewrite split_step; rewrite F1; [|lia]. rewrite !pushed_app.
    replace (d + 1 - 1)%Z with d by lia. reflexivity.
  - intros s c cc body cs fin1 fin2 _ _ IH [F1 _] [F2 _] d k Hd. cbn [app]. rewrite split_step by (cbn [output ttyp]; lia). cbn [output ttyp].
    rewrite <- app_assoc, IH by lia. cbn [app]. rewrite split_step; rewrite F1; [|lia]. rewrite split_step; rewrite F2; [|lia]. rewrite !pushed_app.
    replace (d + 1 - 1)%Z with d by lia. f_equal. cbn. now rewrite <- app_assoc.
  - intros. cbn [app]. rewrite split_step; cbn [output ttyp]; auto.
  - intros. cbn [app]. rewrite split_step; cbn [output ttyp]; auto.
  - intros d k _. cbn [app]. unfold pushed. destruct (split_at_nested_end d k) as [[i o]|]; reflexivity.
  - intros t ts c cs _ IH1 _ IH2 d k Hd. rewrite <- app_assoc, IH1, IH2, pushed_app by auto. reflexivity.
  - intros x es cs ts cs' _ _ _ IH d k Hd. cbn [app]. rewrite split_step; cbn [output ttyp]; auto. rewrite IH, pushed_app by auto. reflexivity.
Qed.
Lemma split_nested c B cs fin rest : In (ttyp (output c)) [TFor; TIf; TFuncDef] -> enc_block B cs -> ends TNestedEnd fin ->
  split_at_nested_end 0 (c :: cs ++ fin :: rest) = Some (c :: cs, rest).
Proof.
  intros I En [F _]. assert (H : match ttyp (output c) with TElse | TFor | TFuncDef | TIf => (0 + 1)%Z | TNestedEnd => (0 - 1)%Z | _ => 0%Z end = 1%Z).
  { destruct I as [<-|[<-|[<-|[]]]]; reflexivity. }
  rewrite split_step; rewrite H; [|lia]. rewrite (proj2 split_block _ _ En) by lia. cbn [split_at_nested_end]. rewrite F. cbn. now rewrite app_nil_r.
Qed.
Lemma block_ok_app fs ns inl ini B : forall A vs, block_ok fs ns inl ini vs (A ++ B) -> exists vs', block_ok fs ns inl ini vs' B.
Proof. induction A as [|t A IH]; intros vs Ok; [eauto|]. destruct Ok as [_ Ok]. eauto. Qed.
Lemma split_if fs ns :
  (forall t cs, enc_stmt t cs -> forall inl vs i o k, stmt_ok fs ns inl true vs t -> split_at_if_end k = Done (i, o) -> split_at_if_end (cs ++ k) = Done (cs ++ i, o)) /\
  (forall B cs, enc_block B cs -> forall inl vs i o k, block_ok fs ns inl true vs B -> split_at_if_end k = Done (i, o) -> split_at_if_end (cs ++ k) = Done (cs ++ i, o)).
Proof.
  apply enc_blocks_ind.
  - intros x e c _ inl vs i o k _ E. cbn. now rewrite E.
  - intros s x e c _ inl vs i o k _ E. cbn. now rewrite E.
  - intros a b ca cb _ _ inl vs i o k _ E. cbn. now rewrite E.
  - intros f es cs _ inl vs i o k _ E. cbn. now rewrite E.
  - intros s e c _ inl vs i o k _ E. cbn. now rewrite E.
  - intros s c cc s1 x e ce body cs fin _ _ _ IH [F1 _] inl vs i o k (_ & _ & _ & Ok) E. apply stmt_block in Ok.
    assert (E1 : split_at_if_end (fin :: k) = Done (fin :: i, o)) by (cbn [split_at_if_end]; rewrite F1, E; reflexivity).
    cbn [app split_at_if_end output ttyp ttype_eqb]. rewrite <- app_assoc. cbn [app]. rewrite (IH _ _ _ _ _ Ok E1). cbn. now rewrite <- app_assoc.
  - intros s c cc body cs fin1 fin2 _ _ _ _ _ inl vs i o k (X & _) _. discriminate.
  - intros x inl vs i o k _ E. cbn. now rewrite E.
  - intros s a es cs e c _ _ inl vs i o k _ E. cbn. now rewrite E.
  - intros inl vs i o k _ E. exact E.
  - intros t ts c cs _ IH1 _ IH2 inl vs i o k [Ok1 Ok2] E. rewrite <- !app_assoc. eapply IH1; eauto.
  - intros x es cs ts cs' _ _ _ IH inl vs i o k Ok E. apply block_ok_app in Ok. destruct Ok as [vs' Ok]. cbn [app split_at_if_end output ttyp ttype_eqb]. now rewrite (IH _ _ _ _ _ Ok E).
Qed.

(** ** The object of a block under construction *)
Section P.
Variable fs : defs.
Variable ns : list string.
Definition own (o : fobj) (ts : list ctree) (X Y : list string) : Prop :=
  ftasks o = Some ts /\
  (forall x, In x (keys (fcons o)) -> In x (X ++ Y) /\ (In x (keys (ffuns o)) -> lookup x (fcons o) = Some (call_of x))) /\
  (forall x, In x X -> In x (keys (fcons o)) /\ In x (keys (ffuns o))) /\
  (forall x, In x (keys (ffuns o)) -> In x X \/ exists k s, x = blk k s /\ In s ["for"; "if"] /\ k < List.length ts).
Definition grown (o o' : fobj) : Prop :=
  fctx o' = fctx o /\ finputs o' = finputs o /\ forall x b, lookup x (ffuns o) = Some b -> lookup x (ffuns o') = Some b.
Definition touch (a : nat) (h h' : heap) : Prop :=
  List.length h <= List.length h' /\ forall b, b < List.length h -> b <> a -> nth_error h' b = nth_error h b.
Definition within (P : nat -> Prop) (h h' : heap) : Prop := forall x ob, P x -> nth_error h x = Some ob -> nth_error h' x = Some ob.

Lemma grown_refl o : grown o o.
Proof. repeat split; auto. Qed.
Lemma grown_trans o o1 o2 : grown o o1 -> grown o1 o2 -> grown o o2.
Proof. intros (A & B & C) (A' & B' & C'). split; [congruence|]. split; [congruence|auto]. Qed.
Lemma touch_refl a h : touch a h h.
Proof. split; auto. Qed.
Lemma touch_trans a h h1 h2 : touch a h h1 -> touch a h1 h2 -> touch a h h2.
Proof. intros [A B] [A' B']. split; [lia|]. intros b L N. rewrite B', B; auto. lia. Qed.
Lemma touch_new a b h h1 h2 : touch a h h1 -> touch b h1 h2 -> List.length h <= b -> touch a h h2.
Proof. intros [A B] [A' B'] L. split; [lia|]. intros c Lc N. rewrite B', B; auto; lia. Qed.
Lemma touch_store a h o : touch a h (store h a o).
Proof. split; [now rewrite store_length|]. intros b L N. rewrite nth_store_ne; auto. Qed.
Lemma touch_app a h e : touch a h (h ++ e).
Proof. split; [rewrite app_length; lia|]. intros b L N. now rewrite nth_error_app1. Qed.

(** New objects and their entries. *)
Lemma own_task o ts X Y c : own o ts X Y -> own (with_tasks o (ts ++ [c])) (ts ++ [c]) X Y.
Proof.
  intros (A & B & C & D). split; [reflexivity|]. split; [exact B|]. split; [exact C|]. intros x I. destruct (D x I) as [J|(k & s & E & S & L)]; auto.
  right. exists k, s. rewrite app_length. cbn. split; auto. split; auto. lia.
Qed.
Lemma lookup_none_keys {A} x (m : list (string * A)) : lookup x m = None <-> ~ In x (keys m).
Proof. rewrite lookup_find_at. apply find_at_none. Qed.
Lemma own_block_fresh o ts X Y s : own o ts X Y -> Forall name_ok X -> In s ["for"; "if"] -> lookup (blk (List.length ts) s) (ffuns o) = None.
Proof.
  intros (A & B & C & D) F S. apply lookup_none_keys. intros I. destruct (D _ I) as [J|(k & s' & E & S' & L)].
  - rewrite Forall_forall in F. exact (blk_name _ _ (F _ J)).
  - apply blk_inj in E; auto. lia.
Qed.
Lemma own_block o ts X Y s b c : own o ts X Y -> Forall name_ok (X ++ Y) -> In s ["for"; "if"] ->
  own (with_tasks (with_funs o (set_at (blk (List.length ts) s) b (ffuns o))) (ts ++ [c])) (ts ++ [c]) X Y.
Proof.
  intros (A & B & C & D) Fn S. split; [reflexivity|]. cbn [ffuns fcons with_tasks with_funs]. split; [|split].
  - intros x I. destruct (B x I) as (B1 & B2). split; auto. intros J. apply set_at_keys in J. destruct J as [->|J]; auto.
    rewrite Forall_forall in Fn. destruct (blk_name _ _ (Fn _ B1)).
  - intros x I. destruct (C x I) as [C1 C2]. split; auto. apply set_at_keys. now right.
  - intros x I. apply set_at_keys in I. rewrite app_length. cbn. destruct I as [->|I].
    + right. exists (List.length ts), s. split; auto. split; auto. lia.
    + destruct (D x I) as [J|(k & s' & E & S' & L)]; auto. right. exists k, s'. split; auto. split; auto. lia.
Qed.
Lemma grown_set o x b ts : lookup x (ffuns o) = None -> grown o (with_tasks (with_funs o (set_at x b (ffuns o))) ts).
Proof.
  intros N. split; [reflexivity|]. split; [reflexivity|]. cbn [ffuns with_tasks with_funs]. intros y c L. rewrite lookup_set_at. destruct (String.eqb_spec y x) as [->|_]; [congruence|exact L].
Qed.
Lemma own_arg o o' ts X Y x b : own o ts X Y -> ftasks o' = ftasks o -> ffuns o' = set_at x b (ffuns o) -> fcons o' = set_at x (call_of x) (fcons o) -> own o' ts (X ++ [x]) Y.
Proof.
  intros (A & B & C & D) Et Ef Ec. unfold own. rewrite Et, Ef, Ec. split; [exact A|]. split; [|split].
  - intros y I. apply set_at_keys in I. rewrite lookup_set_at. rewrite !in_app_iff. rewrite set_at_keys. destruct I as [->|I].
    + rewrite String.eqb_refl. split; [left; right; now left|]. auto.
    + destruct (B y I) as (B1 & B2). rewrite in_app_iff in B1. split; [destruct B1; auto|]. destruct (String.eqb_spec y x) as [->|Ny]; auto. intros [J|J]; [easy|auto].
  - intros y I. apply in_app_iff in I. rewrite !set_at_keys. destruct I as [I|[<-|[]]]; auto. destruct (C y I). auto.
  - intros y I. apply set_at_keys in I. rewrite in_app_iff. destruct I as [->|I]; [left; right; now left|].
    destruct (D y I) as [J|J]; auto.
Qed.
Lemma own_declare o ts X Y x b c : own o ts X Y ->
  own (with_tasks (with_cons (with_funs o (set_at x b (ffuns o))) (set_at x (call_of x) (fcons o))) (ts ++ [c])) (ts ++ [c]) (X ++ [x]) Y.
Proof. intros Ow. apply (own_task (with_cons (with_funs o (set_at x b (ffuns o))) (set_at x (call_of x) (fcons o)))). eapply own_arg; [exact Ow|reflexivity..]. Qed.
Lemma own_array o ts X Y x c : own o ts X Y -> name_ok x -> lookup x (fcons o) = None -> own (with_cons o (set_at x c (fcons o))) ts X (Y ++ [x]).
Proof.
  intros (A & B & C & D) Nx Lx. apply lookup_none_keys in Lx. split; [exact A|]. cbn [ffuns fcons with_cons]. split; [|split; [|exact D]].
  - intros y I. apply set_at_keys in I. rewrite lookup_set_at, !in_app_iff. destruct (String.eqb_spec y x) as [->|Ny].
    + split; [right; right; now left|]. intros J. destruct (D x J) as [K|(k & s & -> & _)]; [|now apply blk_name in Nx]. now apply C in K.
    + destruct I as [I|I]; [easy|]. destruct (B y I) as [B1 B2]. apply in_app_iff in B1. split; auto. destruct B1; auto.
  - intros y I. destruct (C y I). rewrite set_at_keys. auto.
Qed.
Lemma own_nil name ctx : own (new_circuit name ctx) [] [] [].
Proof. split; [reflexivity|]. cbn. split; [easy|]. split; easy. Qed.
Lemma own_tree h a o ts X Y ps B ctx : nth_error h a = Some o -> own o ts X Y -> X = ps ++ decls B -> Y = arrays B -> Forall name_ok X -> fctx o = ctx -> finputs o = ps -> kids h a B ts -> tree h a ctx ps B.
Proof.
  intros N (A & D & C & F) -> -> Fn Ec Ei K. eapply tree_block; eauto.
  - intros x I. destruct (D x I) as [D1 D2]. rewrite <- app_assoc in D1. auto.
  - intros x Nx I. apply C. destruct (F x I) as [J|(k & s & -> & _)]; auto. now apply blk_name in Nx.
Qed.

Definition PRE (n : nat) : Prop := forall B cs h a o ts0 X Y vs inl ini h',
  enc_block B cs -> precompile n h a cs = Done h' -> nth_error h a = Some o -> own o ts0 X Y -> Forall name_ok (X ++ Y) -> block_ok fs ns inl ini vs B ->
  exists o' ts, nth_error h' a = Some o' /\ own o' (ts0 ++ ts) (X ++ decls B) (Y ++ arrays B) /\ grown o o' /\ touch a h h' /\
    forall h'', within (fun x => x = a \/ List.length h <= x) h' h'' -> kids h'' a B ts.

Lemma decls_ok inl ini vs B : block_ok fs ns inl ini vs B -> Forall name_ok (decls B).
Proof. intros Ok. apply Forall_forall. intros x I. eapply block_decls in Ok; [apply Ok|apply in_app_iff; left; exact I]. Qed.
Lemma arrays_cons t B : arrays (t :: B) = arrays [t] ++ arrays B.
Proof. unfold arrays. cbn. now rewrite app_nil_r. Qed.
Lemma arrays_app A B : arrays (A ++ B) = arrays A ++ arrays B.
Proof. unfold arrays. apply flat_map_app. Qed.
Lemma decls_app A B : decls (A ++ B) = decls A ++ decls B.
Proof. unfold decls. apply flat_map_app. Qed.
Lemma arrays_named inl ini vs B : block_ok fs ns inl ini vs B -> Forall name_ok (arrays B).
Proof. intros Ok. apply Forall_forall. intros x I. eapply block_decls in Ok; [apply Ok|apply in_app_iff; right; exact I]. Qed.
Lemma both_ok inl ini vs B X Y : Forall name_ok (X ++ Y) -> block_ok fs ns inl ini vs B -> Forall name_ok ((X ++ decls B) ++ (Y ++ arrays B)).
Proof.
  intros F Ok. apply Forall_app in F. destruct F as [F1 F2]. apply Forall_app. split; apply Forall_app; split; auto; [eapply decls_ok|eapply arrays_named]; eauto.
Qed.
Lemma decls_none t B : decls [t] = [] -> decls (t :: B) = decls B.
Proof. intros E. now rewrite decls_cons, E. Qed.
Lemma arrays_none t B : arrays [t] = [] -> arrays (t :: B) = arrays B.
Proof. intros E. now rewrite arrays_cons, E. Qed.
Lemma add_task_inv h a o ts c h' : add_task h a c = Done h' -> nth_error h a = Some o -> ftasks o = Some ts -> h' = store h a (with_tasks o (ts ++ [c])).
Proof. unfold add_task, fetch. intros E N Et. rewrite N in E. cbn [get bind] in E. rewrite Et in E. cbn in E. now injection E as <-. Qed.
Lemma block_name_inv h a o ts s name : block_name h a s = Done name -> nth_error h a = Some o -> ftasks o = Some ts -> name = blk (List.length ts) s.
Proof. unfold block_name, fetch. intros E N Et. rewrite N in E. cbn [get bind] in E. rewrite Et in E. cbn in E. now injection E as <-. Qed.

(** A statement that becomes one task. *)
Lemma pre_task n t c cs h a o ts0 X Y vs inl ini B h' rest : (forall k, k < n -> PRE k) -> decls [t] = [] -> arrays [t] = [] ->
  enc_block B rest -> precompile n h a (c :: rest) = Done h' -> In (ttyp (output c)) [TOverload; TCall; TReturn] ->
  nth_error h a = Some o -> own o ts0 X Y -> Forall name_ok (X ++ Y) -> block_ok fs ns inl ini vs B -> (forall h, kid h a t cs) -> cs = c ->
  exists o' ts, nth_error h' a = Some o' /\ own o' (ts0 ++ ts) (X ++ decls (t :: B)) (Y ++ arrays (t :: B)) /\ grown o o' /\ touch a h h' /\
    forall h'', within (fun x => x = a \/ List.length h <= x) h' h'' -> kids h'' a (t :: B) ts.
Proof.
  intros IH Dt At En E I N Ow Fn Ok Kd ->. destruct n as [|n]; [discriminate|]. cbn [precompile] in E.
  assert (E' : (h1 <- add_task h a c ;; _ <- check_all h1 a (inputs c) ;; precompile n h1 a rest) = Done h') by (destruct I as [I|[I|[I|[]]]]; rewrite <- I in E; exact E).
  clear E. apply bind_inv in E'. destruct E' as (h1 & Ea & E). apply bind_inv in E. destruct E as (u & _ & E).
  assert (Et : ftasks o = Some ts0) by apply Ow. apply (add_task_inv _ _ _ _ _ _ Ea N) in Et. subst h1.
  destruct (IH n (Nat.lt_succ_diag_r n) B rest _ a (with_tasks o (ts0 ++ [c])) (ts0 ++ [c]) X Y vs inl ini h' En E) as (o' & ts & N' & Ow' & Gr & To & Kk); auto.
  { apply nth_store_eq. eapply nth_lt; eauto. } { now apply own_task. }
  exists o', (c :: ts). split; auto. rewrite <- app_assoc in Ow'. split; [rewrite decls_none, arrays_none by assumption; exact Ow'|]. split; [exact Gr|].
  split; [eapply touch_trans; [apply touch_store|exact To]|]. intros h'' Wi. rewrite store_length in Kk. constructor; auto.
Qed.

Lemma within_sub (P Q : nat -> Prop) h h' : (forall x, Q x -> P x) -> within P h h' -> within Q h h'.
Proof. intros H W x ob Hx. apply W. auto. Qed.
Lemma touch_within a h h1 (P : nat -> Prop) : touch a h h1 -> ~ P a -> within P h h1.
Proof. intros [_ B] Na x ob Px N. rewrite B; [exact N|eapply nth_lt; eauto|intros ->; auto]. Qed.
Lemma within_trans P h h1 h2 : within P h h1 -> within P h1 h2 -> within P h h2.
Proof. intros A B x ob Px N. auto. Qed.
Lemma set_fun_inv h a x b h' o : set_fun h a x b = Done h' -> nth_error h a = Some o -> h' = store h a (with_funs o (set_at x b (ffuns o))).
Proof. unfold set_fun, fetch. intros E N. rewrite N in E. cbn [get bind] in E. now injection E as <-. Qed.
Lemma store_store h a o o' : store (store h a o) a o' = store h a o'.
Proof. revert a. induction h as [|x h IH]; intros [|a]; cbn; auto. now rewrite IH. Qed.
Lemma name_not_con o ts X Y k s : own o ts X Y -> Forall name_ok (X ++ Y) -> ~ In (blk k s) (keys (fcons o)).
Proof. intros (_ & B & _) F I. destruct (B _ I) as [J _]. rewrite Forall_forall in F. exact (blk_name _ _ (F _ J)). Qed.

Lemma declare_spec h a o ts0 X Y x c h' : declare h a (Con (Tok TVarDecl x) [c]) = Done h' -> nth_error h a = Some o -> own o ts0 X Y ->
  exists o1, nth_error h' a = Some o1 /\ own o1 (ts0 ++ [Con (Tok TOverload "") [leaf (Tok TVarDecl x); c]]) (X ++ [x]) Y /\ grown o o1 /\ touch a h h'.
Proof.
  intros Ed N Ow. assert (La := nth_lt _ _ _ N). assert (Et : ftasks o = Some ts0) by apply Ow.
  unfold declare in Ed. cbn [output ident inputs] in Ed. apply bind_inv in Ed. destruct Ed as (o1 & Eo & Ed). apply fetch_inv in Eo. rewrite N in Eo. injection Eo as <-.
  destruct (lookup x (ffuns o)) as [|] eqn:Lk; [discriminate|]. cbn [alloc] in Ed. apply bind_inv in Ed. destruct Ed as (h2 & E2 & Ed).
  assert (N0 : forall ob, nth_error (h ++ [ob]) a = Some o) by (intros; now apply nth_app_old).
  apply (set_fun_inv _ _ _ _ _ _ E2) in N0. subst h2. clear E2.
  apply bind_inv in Ed. destruct Ed as (h3 & E3 & Ed). unfold set_con, fetch in E3. rewrite nth_store_eq in E3 by (rewrite app_length; lia). cbn [get bind] in E3. injection E3 as <-.
  rewrite store_store in Ed. eapply add_task_inv in Ed; [|apply nth_store_eq; rewrite app_length; lia|exact Et]. rewrite store_store in Ed. subst h'.
  cbn [fcons with_funs].
  match goal with |- context [store ?x a ?y] => set (o1 := y); set (hh := x) end.
  exists o1. split; [apply nth_store_eq; unfold hh; rewrite app_length; lia|]. split; [apply own_declare; exact Ow|].
  split; [exact (grown_set o x (List.length h) [] Lk)|]. eapply touch_trans; [apply (touch_app a h)|apply touch_store].
Qed.
Lemma kids_app h a A : forall B ts ts', kids h a A ts -> kids h a B ts' -> kids h a (A ++ B) (ts ++ ts').
Proof. induction A as [|t A IH]; intros B ts ts' K1 K2; inversion K1; subst; cbn [app]; auto; constructor; auto. Qed.
Lemma elements_spec a x : forall es cs i h o ts0 X Y h', encs es cs -> declare_elements h a x i cs = Done h' -> nth_error h a = Some o -> own o ts0 X Y ->
  exists o' ts, nth_error h' a = Some o' /\ own o' (ts0 ++ ts) (X ++ decls (elements x i es)) Y /\ grown o o' /\ touch a h h' /\ forall h'', kids h'' a (elements x i es) ts.
Proof.
  induction es as [|e es IH]; intros cs i h o ts0 X Y h' En E N Ow; inversion En as [|? ? c cs' En1 En2]; subst; cbn [declare_elements] in E.
  - injection E as <-. exists o, []. rewrite !app_nil_r. split; auto. split; auto. split; [apply grown_refl|]. split; [apply touch_refl|]. constructor.
  - apply bind_inv in E. destruct E as (h1 & E1 & E). apply bind_inv in E. destruct E as (u & _ & E).
    destruct (declare_spec _ _ _ _ _ _ _ _ _ E1 N Ow) as (o1 & N1 & Ow1 & G1 & T1).
    destruct (IH _ _ _ _ _ _ _ _ En2 E N1 Ow1) as (o' & ts & N' & Ow' & G' & T' & K').
    eexists o', (_ :: ts). split; [exact N'|]. rewrite <- !app_assoc in Ow'. cbn [app elements] in Ow' |- *. rewrite decls_cons.
    split; [exact Ow'|]. split; [eapply grown_trans; eauto|]. split; [eapply touch_trans; eauto|]. intros h''. constructor; auto. constructor. exact En1.
Qed.
Lemma elements_arrays x es : forall i, arrays (elements x i es) = [].
Proof. induction es as [|e es IH]; intros i; cbn [elements]; [reflexivity|]. rewrite arrays_none by reflexivity. apply IH. Qed.
Lemma elements_named inl ini x B es : forall i vs, block_ok fs ns inl ini vs (elements x i es ++ B) -> Forall name_ok (decls (elements x i es)).
Proof.
  induction es as [|e es IH]; intros i vs Ok; cbn [elements app] in *; [constructor|]. destruct Ok as [Ok1 Ok2]. rewrite decls_cons. apply Forall_app. split; [|eauto].
  constructor; [|constructor]. cbn in Ok1. apply Ok1.
Qed.

Lemma pre_step n : (forall k, k < n -> PRE k) -> PRE n.
Proof.
  intros IH B cs h a o ts0 X Y vs inl ini h' En E N Ow Fn Ok. destruct n as [|n]; [discriminate|].
  assert (IHn := IH n (Nat.lt_succ_diag_r n)). assert (FnX : Forall name_ok X) by (apply Forall_app in Fn; apply Fn).
  destruct En as [|t B c1 cs En1 En2|x es ces B cs Nes Ees En2].
  { injection E as <-. exists o, []. cbn [decls arrays flat_map]. rewrite !app_nil_r. split; auto. split; auto. split; [apply grown_refl|]. split; [apply touch_refl|]. intros. constructor. }
  2:{ (* an array *)
    unfold array in Ok. cbn [app] in Ok. destruct Ok as [Ok1 Ok2]. cbn in Ok1. assert (Nx : name_ok x) by apply Ok1.
    cbn [precompile output ttyp ident inputs] in E. apply bind_inv in E. destruct E as (o1 & Eo & E). apply fetch_inv in Eo. rewrite N in Eo. injection Eo as <-.
    destruct (lookup x (fcons o)) eqn:Lx; [discriminate|]. apply bind_inv in E. destruct E as (h1 & E1 & E). unfold set_con, fetch in E1. rewrite N in E1. cbn [get bind] in E1. injection E1 as <-.
    apply bind_inv in E. destruct E as (h2 & E2 & E). apply bind_inv in E. destruct E as (u & _ & E). assert (La := nth_lt _ _ _ N).
    destruct (elements_spec a x es ces 0 _ _ ts0 X (Y ++ [x]) h2 Ees E2 (nth_store_eq _ _ _ La) (own_array _ _ _ _ _ _ Ow Nx Lx)) as (o2 & ts2 & N2 & Ow2 & G2 & T2 & K2).
    destruct (block_ok_app _ _ _ _ _ _ _ Ok2) as [vs' Ok'].
    assert (Fe := elements_named _ _ _ _ _ _ _ Ok2).
    destruct (IHn B cs h2 a o2 _ _ _ vs' inl ini h' En2 E N2 Ow2) as (o' & ts & N' & Ow' & Gr & To & Kk); auto.
    { apply Forall_app in Fn. destruct Fn as [_ FnY]. apply Forall_app. split; apply Forall_app; split; auto. }
    exists o', (ts2 ++ ts). split; auto. split.
    { rewrite decls_app, arrays_app. unfold array. rewrite decls_none, (arrays_cons (Array x)), elements_arrays by reflexivity. cbn [app]. rewrite <- !app_assoc in Ow'. rewrite app_nil_r. exact Ow'. }
    split; [eapply grown_trans; [|exact Gr]; exact G2|]. split; [eapply touch_trans; [|exact To]; eapply touch_trans; [apply touch_store|exact T2]|].
    intros h'' Wi. unfold array. cbn [app]. constructor. apply kids_app; auto. apply Kk. eapply within_sub; [|exact Wi]. cbn. destruct T2 as [T2 _]. rewrite store_length in T2. intros y [Hy|Hy]; auto. right. lia. }
  destruct Ok as [Ok1 Ok2]. assert (La := nth_lt _ _ _ N). assert (Et : ftasks o = Some ts0) by apply Ow.
  destruct En1 as [x e c En|s x e c En|e1 e2 c1 c2 E1 E2|f es ces Es|s e c En|s c cc s1 x e ce body cb fin Ec Ee Eb Ef|s c cc body cb fin1 fin2 Ec Eb E1 E2|x|s x es ces e c Ees En].
  - (* declaration *)
    cbn [app precompile output ttyp ident inputs] in E. apply bind_inv in E. destruct E as (h1 & Ed & E). apply bind_inv in E. destruct E as (u & _ & E).
    destruct (declare_spec _ _ _ _ _ _ _ _ _ Ed N Ow) as (o1 & N1 & Ow1 & G1 & T1).
    destruct (IHn B cs _ a o1 _ _ _ (vs ++ [x]) inl ini h' En2 E N1 Ow1) as (o' & ts & N' & Ow' & Gr & To & Kk).
    { apply Forall_app in Fn. destruct Fn as [_ FnY]. apply Forall_app. split; auto. apply Forall_app. split; auto. constructor; auto. cbn in Ok1. apply Ok1. }
    { exact Ok2. }
    eexists o', (_ :: ts). split; [exact N'|]. rewrite <- !app_assoc in Ow'. rewrite decls_cons, arrays_none by reflexivity. split; [exact Ow'|].
    split; [eapply grown_trans; eauto|]. split; [eapply touch_trans; eauto|].
    intros h'' Wi. constructor; [constructor; exact En|]. apply Kk. eapply within_sub; [|exact Wi]. cbn. destruct T1 as [T1 _]. intros y [Hy|Hy]; auto. right. lia.
  - (* assignment *)
    eapply (pre_task (S n)); [exact IH|reflexivity|reflexivity|exact En2|exact E|now left|exact N|exact Ow|exact Fn|exact Ok2| |reflexivity]. intros. constructor. exact En.
  - eapply (pre_task (S n)); [exact IH|reflexivity|reflexivity|exact En2|exact E|right; now left|exact N|exact Ow|exact Fn|exact Ok2| |reflexivity]. intros. constructor; auto.
  - eapply (pre_task (S n)); [exact IH|reflexivity|reflexivity|exact En2|exact E|right; now left|exact N|exact Ow|exact Fn|exact Ok2| |reflexivity]. intros. constructor; auto.
  - eapply (pre_task (S n)); [exact IH|reflexivity|reflexivity|exact En2|exact E|right; right; now left|exact N|exact Ow|exact Fn|exact Ok2| |reflexivity]. intros. constructor; auto.
  - (* for *)
    set (con := Con (Tok TFor s) _) in E. cbn [app] in E. rewrite <- app_assoc in E. cbn [app] in E. cbn [precompile] in E. unfold con at 1 in E. cbn [output ttyp] in E.
    rewrite (split_nested con body cb fin cs) in E by (auto; now left). cbn [get bind tl] in E.
    apply bind_inv in E. destruct E as (name & Eb1 & E). apply (block_name_inv _ _ _ _ _ _ Eb1 N) in Et. subst name. clear Eb1. assert (Et : ftasks o = Some ts0) by apply Ow.
    cbn [alloc] in E. apply bind_inv in E. destruct E as (h2 & E2 & E).
    assert (N0 : nth_error (h ++ [new_circuit "for" (Some a)]) a = Some o) by now apply nth_app_old.
    apply (set_fun_inv _ _ _ _ _ _ E2) in N0. subst h2. clear E2.
    apply bind_inv in E. destruct E as (h3 & E3 & E). eapply add_task_inv in E3; [|apply nth_store_eq; rewrite app_length; lia|exact Et]. rewrite store_store in E3. subst h3.
    apply bind_inv in E. destruct E as (h4 & E4 & E).
    match type of E4 with precompile _ (store ?x a ?y) _ _ = _ => set (o1 := y) in E4; set (hh := x) in E4 end. set (task := Con (Tok TFor (blk (List.length ts0) "for")) _) in o1.
    assert (Lh : List.length hh = S (List.length h)) by (unfold hh; rewrite app_length; cbn; lia).
    assert (Lf : lookup (blk (List.length ts0) "for") (ffuns o) = None) by (apply (own_block_fresh _ _ _ _ _ Ow FnX); now left).
    destruct (IHn B cs _ a o1 (ts0 ++ [task]) X Y vs inl ini h4 En2 E4) as (o4 & ts & N4 & Ow4 & Gr4 & To4 & Kk4).
    { apply nth_store_eq. rewrite Lh. lia. }
    { apply own_block; [exact Ow|exact Fn|now left]. }
    { exact Fn. } { exact Ok2. }
    set (b := List.length h) in *.
    assert (Nb : nth_error h4 b = Some (new_circuit "for" (Some a))).
    { destruct To4 as [_ To4]. rewrite To4; [|rewrite store_length, Lh; unfold b; lia|unfold b; lia]. rewrite nth_store_ne by (unfold b; lia). apply nth_last. }
    cbn [stmt_ok] in Ok1. destruct Ok1 as (Okc & Iv & Oke & Okb). apply stmt_block in Okb.
    destruct (IHn body cb h4 b _ [] [] [] vs true ini h' Eb E Nb (own_nil _ _) (Forall_nil _) Okb) as (o5 & ts5 & N5 & Ow5 & Gr5 & To5 & Kk5). cbn [app] in Ow5.
    assert (Na' : nth_error h' a = Some o4).
    { destruct To5 as [_ To5]. rewrite To5; [exact N4|eapply nth_lt; eauto|unfold b; lia]. }
    assert (L4 : S b <= List.length h4) by (destruct To4 as [To4 _]; rewrite store_length, Lh in To4; exact To4).
    exists o4, (task :: ts). split; [exact Na'|]. rewrite <- app_assoc in Ow4. rewrite decls_none, arrays_none by reflexivity. split; [exact Ow4|].
    split; [eapply grown_trans; [|exact Gr4]; exact (grown_set o _ b [] Lf)|].
    split; [eapply touch_new; [|exact To5|unfold b; lia]; eapply touch_trans; [|exact To4]; eapply touch_trans; [apply (touch_app a h)|apply touch_store]|].
    intros h'' Wi. constructor.
    + assert (Gl : lookup (blk (List.length ts0) "for") (ffuns o4) = Some b).
      { destruct Gr4 as (_ & _ & Gr4). apply Gr4. cbn [o1 ffuns with_tasks with_funs]. rewrite lookup_set_at, String.eqb_refl. reflexivity. }
      eapply kid_for; [exact Ec|exact Ee|apply Wi; [now left|exact Na']|exact Gl| |apply blk_reserved|unfold b; lia|].
      * apply (name_not_con _ _ _ _ _ _ Ow4). eapply both_ok; eauto.
      * eapply own_tree; [apply Wi; [right; unfold b; lia|exact N5]|exact Ow5|reflexivity|reflexivity|eapply decls_ok; eauto|apply Gr5|apply Gr5|].
        apply Kk5. eapply within_sub; [|exact Wi]. cbn. intros y [->|Hy]; right; unfold b in *; lia.
    + apply Kk4. eapply within_trans; [|eapply within_sub; [|exact Wi]].
      * eapply touch_within; [exact To5|]. rewrite store_length, Lh. unfold b. lia.
      * cbn. rewrite store_length, Lh. intros y [Hy|Hy]; auto. right. lia.
  - (* if *)
    cbn [stmt_ok] in Ok1. destruct Ok1 as (-> & Okc & Okb). apply stmt_block in Okb.
    set (con := Con (Tok TIf s) [cc]) in E. cbn [app] in E. rewrite <- app_assoc in E. cbn [app] in E. cbn [precompile] in E. unfold con at 1 in E. cbn [output ttyp] in E.
    assert (Si : split_at_if_end (con :: cb ++ fin1 :: fin2 :: cs) = Done (con :: cb ++ [fin1], fin2 :: cs)).
    { assert (Sf : split_at_if_end (fin1 :: fin2 :: cs) = Done ([fin1], fin2 :: cs)).
      { destruct E1 as [F1 _], E2 as [F2 _]. cbn [split_at_if_end]. rewrite F1, F2. reflexivity. }
      unfold con. cbn [split_at_if_end output ttyp ttype_eqb]. rewrite (proj2 (split_if fs ns) _ _ Eb _ _ _ _ _ Okb Sf). reflexivity. }
    rewrite Si in E. cbn [bind] in E. clear Si.
    apply bind_inv in E. destruct E as (name & Eb1 & E). apply (block_name_inv _ _ _ _ _ _ Eb1 N) in Et. subst name. clear Eb1. assert (Et : ftasks o = Some ts0) by apply Ow.
    cbn [alloc] in E. apply bind_inv in E. destruct E as (h2 & Eh2 & E).
    set (name := blk (List.length ts0) "if") in *.
    assert (N0 : nth_error (h ++ [new_circuit name (Some a)]) a = Some o) by now apply nth_app_old.
    apply (set_fun_inv _ _ _ _ _ _ Eh2) in N0. subst h2. clear Eh2.
    apply bind_inv in E. destruct E as (h3 & E3 & E). eapply add_task_inv in E3; [|apply nth_store_eq; rewrite app_length; lia|exact Et]. rewrite store_store in E3. subst h3.
    rewrite (split_nested con body cb fin1 []) in E by (auto; right; now left). cbn [get bind tl] in E.
    set (hh := h ++ [_]) in E. set (o1 := with_tasks _ _) in E. set (f := List.length h) in *. set (b := S f).
    assert (Lh : List.length hh = b) by (unfold hh, b, f; rewrite app_length; cbn; lia).
    assert (Nf : nth_error (store hh a o1) f = Some (new_circuit name (Some a))) by (rewrite nth_store_ne by (unfold f; lia); unfold hh, f; apply nth_last).
    apply bind_inv in E. destruct E as (name2 & Eb2 & E). assert (Nm2 := block_name_inv _ _ _ [] _ _ Eb2 Nf eq_refl). clear Eb2.
    cbn [List.length] in Nm2. subst name2. set (name2 := blk 0 "if") in *.
    apply bind_inv in E. destruct E as (h5 & E5 & E). rewrite store_length, Lh in E5.
    assert (N0 : nth_error (store hh a o1 ++ [new_circuit "if" (Some a)]) f = Some (new_circuit name (Some a))) by now apply nth_app_old.
    apply (set_fun_inv _ _ _ _ _ _ E5) in N0. subst h5. clear E5.
    assert (Lg : List.length (store hh a o1 ++ [new_circuit "if" (Some a)]) = S b) by (rewrite app_length, store_length, Lh; cbn; lia).
    apply bind_inv in E. destruct E as (h6 & E6 & E). eapply add_task_inv in E6; [|apply nth_store_eq; rewrite Lg; unfold b; lia|reflexivity]. rewrite store_store in E6. subst h6.
    set (fo := with_tasks _ _) in E. cbn [app] in fo. set (h6 := store _ f fo) in E. rewrite store_length, Lh in E.
    assert (L6 : List.length h6 = S b) by (unfold h6; rewrite store_length; exact Lg).
    apply bind_inv in E. destruct E as (h7 & E7 & E). apply bind_inv in E. destruct E as (h8 & E8 & E).
    (* the end of the chain and what follows *)
    destruct n as [|n]; [discriminate|]. cbn [precompile] in E7. destruct E2 as [F2 I2].
    assert (E7' : precompile n h6 a cs = Done h7) by (rewrite F2, I2 in E7; exact E7). clear E7.
    cbn [precompile] in E. injection E as <-.
    set (task := leaf (Tok TIfCall name)) in *.
    assert (Na6 : nth_error h6 a = Some o1).
    { unfold h6. rewrite nth_store_ne by (unfold f; lia). apply nth_app_old. apply nth_store_eq. rewrite Lh. unfold b, f. lia. }
    assert (Lf : lookup name (ffuns o) = None) by (apply (own_block_fresh _ _ _ _ _ Ow FnX); right; now left).
    destruct (IH n ltac:(lia) B cs h6 a o1 (ts0 ++ [task]) X Y vs inl false h7 En2 E7' Na6) as (o4 & ts & N4 & Ow4 & Gr4 & To4 & Kk4).
    { apply own_block; [exact Ow|exact Fn|right; now left]. }
    { exact Fn. } { exact Ok2. }
    assert (Nb : nth_error h7 b = Some (new_circuit "if" (Some a))).
    { destruct To4 as [_ To4]. rewrite To4; [|lia|unfold b, f; lia]. unfold h6. rewrite nth_store_ne by (unfold b; lia).
      replace b with (List.length (store hh a o1)) by (rewrite store_length; exact Lh). apply nth_last. }
    destruct (IHn body cb h7 b _ [] [] [] vs inl true h8 Eb E8 Nb (own_nil _ _) (Forall_nil _) Okb) as (o5 & ts5 & N5 & Ow5 & Gr5 & To5 & Kk5). cbn [app] in Ow5.
    assert (L7 : S b <= List.length h7) by (destruct To4 as [To4 _]; lia).
    assert (Na' : nth_error h8 a = Some o4).
    { destruct To5 as [_ To5]. rewrite To5; [exact N4|eapply nth_lt; eauto|unfold b, f; lia]. }
    assert (Nf' : nth_error h8 f = Some fo).
    { destruct To5 as [_ To5]. rewrite To5; [|unfold b in *; lia|unfold b; lia]. destruct To4 as [_ To4]. rewrite To4; [|unfold b in *; lia|unfold f; lia].
      unfold h6. apply nth_store_eq. rewrite Lg. unfold b. lia. }
    exists o4, (task :: ts). split; [exact Na'|]. rewrite <- app_assoc in Ow4. rewrite decls_none, arrays_none by reflexivity. split; [exact Ow4|].
    split; [eapply grown_trans; [|exact Gr4]; exact (grown_set o _ f [] Lf)|].
    split.
    { eapply touch_new; [|exact To5|unfold b, f; lia]. eapply touch_trans; [|exact To4]. unfold h6. eapply touch_new; [|apply touch_store|unfold f; lia].
      eapply touch_trans; [|apply touch_app]. eapply touch_trans; [apply (touch_app a h)|apply touch_store]. }
    intros h'' Wi. constructor.
    + assert (Gl : lookup name (ffuns o4) = Some f).
      { destruct Gr4 as (_ & _ & Gr4). apply Gr4. cbn [o1 ffuns with_tasks with_funs]. rewrite lookup_set_at, String.eqb_refl. reflexivity. }
      eapply (kid_if h'' a o4 name f fo name2 b c cc body a); [exact Ec|apply Wi; [now left|exact Na']|exact Gl| |unfold f; lia|apply Wi; [right; unfold f; lia|exact Nf']|reflexivity|reflexivity|reflexivity|apply blk_name|reflexivity|unfold b; lia|now left|].
      * apply (name_not_con _ _ _ _ _ _ Ow4). eapply both_ok; eauto.
      * eapply own_tree; [apply Wi; [right; unfold b, f; lia|exact N5]|exact Ow5|reflexivity|reflexivity|eapply decls_ok; eauto|apply Gr5|apply Gr5|].
        apply Kk5. eapply within_sub; [|exact Wi]. cbn. intros y [->|Hy]; right; unfold b, f in *; lia.
    + apply Kk4. eapply within_trans; [|eapply within_sub; [|exact Wi]].
      * eapply touch_within; [exact To5|]. rewrite L6. unfold b, f. lia.
      * cbn. rewrite L6. intros y [Hy|Hy]; auto. right. unfold b, f in *. lia.
  - (* public *)
    cbn [app precompile output ttyp ident inputs] in E. apply bind_inv in E. destruct E as (o1 & _ & E). destruct (String.eqb (fname o1) "main"); [|discriminate].
    apply bind_inv in E. destruct E as (u & _ & E).
    destruct (IHn B cs h a o ts0 X Y vs inl ini h' En2 E N Ow Fn Ok2) as (o' & ts & N' & Ow' & Gr & To & Kk).
    exists o', ts. split; auto. rewrite decls_none, arrays_none by reflexivity. split; auto. split; auto. split; auto. intros h'' Wi. constructor. auto.
  - eapply (pre_task (S n)); [exact IH|reflexivity|reflexivity|exact En2|exact E|now left|exact N|exact Ow|exact Fn|exact Ok2| |reflexivity]. intros. constructor; auto.
Qed.
Lemma pre_all n : PRE n.
Proof. induction n as [n IH] using lt_wf_ind. now apply pre_step. Qed.

End P.

(** ** Functions *)
Section F.
Variable fs : defs.
Definition arg_object (x : string) : fobj := with_tasks (new_circuit x None) [ret_of [Con (Tok TArgument x) []]].
Lemma register_args_spec : forall ps h f o ts X Y h', register_args h f (map (fun x => Con (Tok TArgument x) []) ps) = Done h' ->
  nth_error h f = Some o -> own o ts X Y ->
  exists o', nth_error h' f = Some o' /\ finputs o' = finputs o ++ ps /\ fctx o' = fctx o /\ own o' ts (X ++ ps) Y /\ touch f h h' /\
    (forall x b, lookup x (ffuns o) = Some b -> lookup x (ffuns o') = Some b) /\
    forall x, In x ps -> exists b, lookup x (ffuns o') = Some b /\ List.length h <= b /\ nth_error h' b = Some (arg_object x).
Proof.
  induction ps as [|x ps IH]; intros h f o ts X Y h' E N Ow; cbn [map register_args output ident inputs] in E.
  - injection E as <-. exists o. rewrite !app_nil_r. split; auto. split; auto. split; auto. split; auto. split; [apply touch_refl|]. split; auto. intros x [].
  - unfold fetch in E. rewrite N in E. cbn [get bind] in E. destruct (lookup x (ffuns o)) eqn:Lk; [discriminate|]. cbn [alloc] in E.
    assert (Lf := nth_lt _ _ _ N). apply bind_inv in E. destruct E as (h2 & E2 & E).
    set (oa := FObj _ _ _ _ _ _ _) in E2. fold (arg_object x) in E2.
    assert (N1 : nth_error (store h f oa ++ [arg_object x]) f = Some oa) by (apply nth_app_old; now apply nth_store_eq).
    apply (set_fun_inv _ _ _ _ _ _ E2) in N1. clear E2. rewrite store_length in N1.
    set (o1 := with_funs oa _) in N1.
    assert (Lh2 : List.length h2 = S (List.length h)) by (rewrite N1, store_length, app_length, store_length; cbn; lia).
    assert (To : touch f h h2).
    { rewrite N1. eapply touch_trans; [apply (touch_store f h oa)|]. eapply touch_trans; [apply touch_app|apply touch_store]. }
    assert (Nf : nth_error h2 f = Some o1) by (rewrite N1; apply nth_store_eq; rewrite app_length, store_length; lia).
    assert (Nr : nth_error h2 (List.length h) = Some (arg_object x)).
    { rewrite N1. rewrite nth_store_ne by lia. replace (List.length h) with (List.length (store h f oa)) by apply store_length. apply nth_last. }
    clear N1.
    destruct (IH h2 f o1 ts (X ++ [x]) Y h' E Nf) as (o' & N' & I' & C' & Ow' & To' & G' & P').
    { eapply own_arg; [exact Ow|reflexivity|reflexivity|reflexivity]. }
    exists o'. split; auto. split; [rewrite I'; cbn [o1 oa finputs with_funs]; rewrite <- app_assoc; reflexivity|]. split; [exact C'|]. split; [rewrite <- app_assoc in Ow'; exact Ow'|].
    split; [eapply touch_trans; eauto|]. split.
    + intros y b Ly. apply G'. cbn [o1 oa ffuns with_funs]. rewrite lookup_set_at. destruct (String.eqb_spec y x) as [->|_]; [congruence|exact Ly].
    + intros y [<-|I].
      * exists (List.length h). split; [apply G'; cbn [o1 oa ffuns with_funs]; now rewrite lookup_set_at, String.eqb_refl|]. split; [lia|].
        destruct To' as [_ To']. rewrite To'; [exact Nr|lia|lia].
      * destruct (P' y I) as (b & Lb & Lr & Nb). exists b. split; auto. split; [lia|auto].
Qed.

Definition fun_at (h : heap) (a : nat) (d : fdef) : Prop :=
  tree h a (Some 0) (fparams d) (fbody d) /\
  forall x, In x (fparams d) -> exists o b, nth_error h a = Some o /\ lookup x (ffuns o) = Some b /\ nth_error h b = Some (arg_object x).
Lemma pre_prog : forall fs' cs, enc_prog fs' cs -> forall n h h' g, precompile n h 0 cs = Done h' -> nth_error h 0 = Some g -> fcons g = [] -> fctx g = None ->
  Forall (fun d => fun_ok fs (fst d) (snd d)) fs' ->
  exists g', nth_error h' 0 = Some g' /\ (fcons g' = [] /\ fctx g' = None) /\ (forall x b, lookup x (ffuns g) = Some b -> lookup x (ffuns g') = Some b) /\ touch 0 h h' /\
    (forall f a, lookup f (ffuns g') = Some a -> lookup f (ffuns g) = Some a \/ find_at f fs' <> None) /\
    forall f d, find_at f fs' = Some d -> exists a, lookup f (ffuns g') = Some a /\ List.length h <= a /\
      forall h'', within (fun x => List.length h <= x) h' h'' -> fun_at h'' a d.
Proof.
  induction 1 as [|f ps body fs' cs fin cs' Eb Ef Ep IH]; intros n h h' g E N Cg Cx Ok; (destruct n as [|n]; [discriminate|]).
  - injection E as <-. exists g. split; auto. split; auto. split; auto. split; [apply touch_refl|]. split; [auto|discriminate].
  - inversion Ok as [|? ? (Nf & Nd & Pp & ns & Ins & Bok) Ok2]; subst. cbn [fst snd fparams fbody] in *.
    set (con := Con (Tok TFuncDef f) _) in E. cbn [precompile] in E. unfold con at 1 in E. cbn [output ttyp] in E.
    rewrite (split_nested con body cs fin cs') in E by (auto; right; right; now left). cbn [get bind tl] in E.
    unfold fetch in E. rewrite N in E. cbn [get bind] in E. unfold con in E. cbn [output ident] in E. rewrite Cg in E. cbn [lookup] in E.
    destruct (lookup f (ffuns g)) eqn:Lk; [discriminate|].
    apply bind_inv in E. destruct E as ([h1 a] & Er & E). unfold register_function in Er. cbn [alloc output ident inputs] in Er.
    apply bind_inv in Er. destruct Er as (h0 & Er & X). injection X as X1 X2. subst h0 a.
    assert (Lg := nth_lt _ _ _ N).
    set (oa := new_circuit f (Some 0)) in Er.
    destruct (register_args_spec ps (h ++ [oa]) (List.length h) oa [] [] [] h1 Er (nth_last _ _) (own_nil _ _)) as (o1 & N1 & I1 & C1 & Ow1 & To1 & _ & P1). cbn [app finputs fctx oa new_circuit] in *.
    apply bind_inv in E. destruct E as (h2 & E2 & E).
    assert (Ng1 : nth_error h1 0 = Some g).
    { destruct To1 as [_ To1]. rewrite To1; [apply nth_app_old; exact N|rewrite app_length; lia|lia]. }
    apply (set_fun_inv _ _ _ _ _ _ E2) in Ng1 as H2. clear E2. set (g2 := with_funs g _) in H2.
    assert (L1 : S (List.length h) <= List.length h1) by (destruct To1 as [To1 _]; rewrite app_length in To1; cbn in To1; lia).
    apply bind_inv in E. destruct E as (h3 & E3 & E).
    assert (Ng2 : nth_error h2 0 = Some g2) by (rewrite H2; apply nth_store_eq; lia).
    assert (L2 : List.length h2 = List.length h1) by (rewrite H2; apply store_length).
    destruct (IH n h2 h3 g2 E3 Ng2 Cg Cx Ok2) as (g3 & Ng3 & Cg3 & Gr3 & To3 & On3 & P3).
    assert (Na3 : nth_error h3 (List.length h) = Some o1).
    { destruct To3 as [_ To3]. rewrite To3; [|lia|lia]. rewrite H2, nth_store_ne by lia. exact N1. }
    assert (Fp : Forall name_ok ps) by (eapply Forall_impl; [|exact Pp]; cbn; tauto).
    destruct (pre_all fs ns n body cs h3 (List.length h) o1 [] ps [] ps false false h' Eb E Na3 Ow1 (eq_rect_r (Forall name_ok) Fp (app_nil_r ps)) Bok) as (o4 & ts & N4 & Ow4 & (Gc & Gi & Gf) & To4 & Kk). cbn [app] in Ow4.
    exists g3. split; [destruct To4 as [_ To4]; rewrite To4; [exact Ng3|apply nth_lt in Na3; lia|lia]|]. split; [exact Cg3|].
    split; [intros x b Lx; apply Gr3; cbn [g2 ffuns with_funs]; rewrite lookup_set_at; destruct (String.eqb_spec x f) as [->|_]; [congruence|exact Lx]|].
    split.
    { eapply touch_new; [|exact To4|lia]. eapply touch_trans; [|exact To3]. rewrite H2. eapply touch_trans; [|apply touch_store]. eapply touch_new; [apply (touch_app 0 h)|exact To1|lia]. }
    split.
    { intros f0 a0 L0. cbn [find_at]. destruct (String.eqb_spec f0 f) as [->|Nef]; [right; discriminate|]. destruct (On3 f0 a0 L0) as [Y|Y]; auto.
      left. cbn [g2 ffuns with_funs] in Y. rewrite lookup_set_at in Y. destruct (String.eqb_spec f0 f); [easy|exact Y]. }
    intros f0 d Ff. cbn [find_at] in Ff. destruct (String.eqb_spec f0 f) as [->|Nef].
    + injection Ff as <-. exists (List.length h). split; [apply Gr3; cbn [g2 ffuns with_funs]; now rewrite lookup_set_at, String.eqb_refl|]. split; [lia|].
      intros h'' Wi. cbn [fparams fbody]. split.
      * eapply own_tree; [apply Wi; [lia|exact N4]|exact Ow4|reflexivity|reflexivity| |rewrite Gc; exact C1|rewrite Gi; exact I1|].
        { apply Forall_app. split; auto. eapply decls_ok; eauto. }
        apply Kk. intros x ob Hx Nx. apply Wi; [|exact Nx]. cbn. destruct Hx as [->|Hx]; [lia|]. apply nth_lt in Na3. lia.
      * intros x Ix. destruct (P1 x Ix) as (b & Lb & Gb & Nb). exists o4, b. split; [apply Wi; [lia|exact N4]|]. split; [apply Gf; exact Lb|].
        rewrite app_length in Gb. cbn in Gb. apply Wi; [lia|]. apply nth_lt in Nb as Lb1. destruct To4 as [To4' To4]. rewrite To4; [|destruct To3; lia|lia].
        destruct To3 as [_ To3]. rewrite To3; [|lia|lia]. rewrite H2, nth_store_ne by lia. exact Nb.
    + destruct (P3 f0 d Ff) as (a & La & Ga & Fa). exists a. split; auto. split; [lia|]. intros h'' Wi. apply Fa.
      intros x ob Hx Nx. cbn in Hx. apply Wi; [cbn; lia|]. destruct To4 as [_ To4]. rewrite To4; [exact Nx|eapply nth_lt; eauto|lia].
Qed.
End F.

Section Q.
Variable sort : factors -> factors.
Variable hash : string -> Z.
Variable q : Z.
Variable fs : defs.
Hypothesis Pok : prog_ok fs.
(** Compiling a program is running it in the domain of factors. *)
Definition argument (x : string) : factors := [Fac (Tok TArgument x) 1%Z].
Lemma arg_stored h b x : nth_error h b = Some (arg_object x) -> stored_at h b (argument x).
Proof.
  intros N. exists (arg_object x). split; auto. split; [reflexivity|]. split; [reflexivity|]. split; [reflexivity|].
  eapply vobj_one; [lia|exact N|reflexivity..].
Qed.
Lemma keys_map {A} (g : string -> A) l : keys (map (fun x => (x, g x)) l) = l.
Proof. unfold keys. rewrite map_map. cbn. apply map_id. Qed.
Lemma find_map {A} (g : string -> A) l x a : find_at x (map (fun x => (x, g x)) l) = Some a -> In x l /\ a = g x.
Proof. induction l as [|y l IH]; cbn; [discriminate|]. destruct (String.eqb_spec x y) as [->|_]; [intros [= <-]; auto|]. intros E. destruct (IH E). auto. Qed.
Theorem runs_symbolic cs n n' p r st : enc_prog fs cs -> build sort hash q n cs = Done p -> run_program sort hash q n' p = Done (r, st) ->
  Forall distinct_names (sstored st) -> exists ins body, find_at "main" fs = Some (Fun ins body) /\
    mb (sym sort hash q) fs (map (fun x => (x, argument x)) ins) (Coll [] [], []) body (opt (strip (rvals r))) (scoll st, strace st) /\
    (strip (rvals r) = [] \/ good q (strip (rvals r))) /\ (returns body -> strip (rvals r) <> []).
Proof.
  intros En Eb Er D. unfold build in Eb. apply bind_inv in Eb. destruct Eb as (pub & _ & Eb). apply bind_inv in Eb. destruct Eb as (h & Ep & Eb).
  apply bind_inv in Eb. destruct Eb as (g & Eg & Eb). apply fetch_inv in Eg. injection Eb as <-.
  destruct Pok as [_ Pf].
  destruct (pre_prog fs fs cs En n [new_circuit "global" None] h _ Ep eq_refl eq_refl eq_refl Pf) as (g' & Ng & (Cg & Cx) & _ & _ & On & P). rewrite Eg in Ng. injection Ng as <-.
  unfold run_program in Er. cbn [pmain pheap] in Er. apply bind_inv in Er. destruct Er as (m & Em & Er). apply get_inv in Em.
  apply bind_inv in Er. destruct Er as (o & Eo & Er). apply fetch_inv in Eo. apply bind_inv in Er. destruct Er as (ts & Et & Er). apply get_inv in Et.
  assert (W : world fs h).
  { exists g. split; auto. split; [split; auto; split; auto; intros x _ Ix; apply keys_find_in in Ix; destruct Ix as [b Ib]; rewrite <- lookup_find_at in Ib; destruct (On x b Ib) as [Z0|Z0]; [discriminate Z0|exact Z0]|]. intros f d Ff _. destruct (P f d Ff) as (a & La & _ & Fa). exists a. split; auto. apply (Fa h). intros x ob _ Nx. exact Nx. }
  assert (Fm : exists d, find_at "main" fs = Some d).
  { destruct (On _ _ Em) as [Y|Y]; [discriminate Y|]. destruct (find_at "main" fs) as [d|]; eauto. easy. }
  destruct Fm as [[ins body] Fm]. exists ins, body. split; auto.
  destruct (P _ _ Fm) as (a & La & Ga & Fa). rewrite Em in La. injection La as <-. cbn [List.length] in Ga.
  destruct (Fa h ltac:(intros x ob _ Nx; exact Nx)) as [T Ps]. cbn [fparams fbody] in *. clear Fa.
  destruct (find_fun_ok fs Pok _ _ Fm) as (Nm & Nd & Pp & ns & Ins & Bok). cbn [fparams fbody] in *.
  inversion T as [? ? ? ? o1 ts1 N1 C1 I1 T1 K1 K2 K3 Kd]; subst. rewrite Eo in N1. injection N1 as <-. rewrite Et in T1. injection T1 as <-.
  set (m0 := map (fun x => (x, argument x)) (finputs o)).
  assert (Ke : keys m0 = finputs o) by apply keys_map.
  assert (Ch : chain q fs ns 0 h [(m, m0)]).
  { eapply chain_fun; [lia|lia|exact Eo|exact C1|]. split; [|split; [exact K3|]].
    - intros x Ix. destruct (K1 x Ix) as (J & J2).
      assert (Hx : name_ok x /\ find_at x fs = None /\ In x ns).
      { apply in_app_iff in J. destruct J as [J|J]; [rewrite Forall_forall in Pp; destruct (Pp x J); auto|]. eapply block_decls in Bok; [|exact J]. destruct Bok as (B1 & _ & B3 & B4). auto. }
      destruct Hx as (H1 & H2 & H3). auto.
    - intros x f Fx. apply find_map in Fx. destruct Fx as [Ix ->]. split; [apply K2, in_app_iff; now left|].
      rewrite Forall_forall in Pp. destruct (Pp x Ix) as [[Nx Nr] _]. split.
      + split; [discriminate|]. split; [|cbn; lia]. constructor; auto. right. cbn. split; auto. split; auto. intros ->. exact Nx.
      + destruct (Ps x Ix) as (o' & b & No' & Lb & Nb). rewrite Eo in No'. injection No' as <-. exists b. split; auto. now apply arg_stored. }
  destruct (main_step sort hash q fs Pok n' ns body ts m m0 [] (St h (Coll [] []) [] []) r st 0 o Er Eo Kd) as (X & G & R); auto.
  { intros x Ix. apply K2, in_app_iff. now right. }
  { change (env_of [(m, m0)]) with m0. rewrite Ke. exact Bok. }
Qed.
End Q.
