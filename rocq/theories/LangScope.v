(** The variables in scope, as found through the chain of contexts. *)
Require Import ZArith Lia Bool Ascii String List.
Require Import Verif.FqModel Verif.FactorModel Verif.ParserModel Verif.CircuitModel Verif.LangSpec Verif.LangHeap Verif.LangSym Verif.LangTree.
Import ListNotations.
Local Open Scope string_scope.
Local Open Scope list_scope.
Local Open Scope nat_scope.

Section P.
Variable q : Z.
Variable fs : defs.
Variable ns : list string.
Notation good := (good q).

Definition frame_ok (h : heap) (o : fobj) (m : list (string * factors)) : Prop :=
  (forall x, In x (keys (fcons o)) -> name_ok x /\ find_at x fs = None /\ (In x (keys (ffuns o)) -> lookup x (fcons o) = Some (call_of x)) /\ In x ns) /\
  (forall x, name_ok x -> In x (keys (ffuns o)) -> In x (keys (fcons o))) /\
  (forall x f, find_at x m = Some f -> In x (keys (fcons o)) /\ good f /\ exists b, lookup x (ffuns o) = Some b /\ stored_at h b f).
(** The object itself, or the one of an if around it. *)
Definition sees (h : heap) (cur p : nat) : Prop :=
  cur = p \/ (p < cur /\ exists fo, nth_error h cur = Some fo /\ fctx fo = Some p /\ fcons fo = [] /\ blind (ffuns fo)).
Definition frames := list (nat * list (string * factors)).
Fixpoint env_of (fr : frames) : list (string * factors) := match fr with [] => [] | (_, m) :: fr' => env_of fr' ++ m end.
Inductive chain (L : nat) (h : heap) : frames -> Prop :=
| chain_fun : forall a o m, L <= a -> 0 < a -> nth_error h a = Some o -> fctx o = Some 0 -> frame_ok h o m -> chain L h [(a, m)]
| chain_block : forall a o m c p mp fr, chain L h ((p, mp) :: fr) -> nth_error h a = Some o -> fctx o = Some c -> sees h c p -> c < a ->
    frame_ok h o m -> (forall x, In x (keys (fcons o)) -> ~ In x (keys (env_of ((p, mp) :: fr)))) -> chain L h ((a, m) :: (p, mp) :: fr).

Lemma keys_app {A} (m1 m2 : list (string * A)) : keys (m1 ++ m2) = keys m1 ++ keys m2.
Proof. apply map_app. Qed.
Lemma find_in_keys {A} x (m : list (string * A)) a : find_at x m = Some a -> In x (keys m).
Proof. intros H. apply find_at_in. rewrite H. discriminate. Qed.
Lemma keys_find_in {A} x (m : list (string * A)) : In x (keys m) -> exists a, find_at x m = Some a.
Proof. intros H. apply find_at_in in H. destruct (find_at x m); [eauto|easy]. Qed.
Lemma frame_names h o m x : frame_ok h o m -> In x (keys m) -> In x (keys (fcons o)) /\ name_ok x /\ find_at x fs = None.
Proof. intros (A & _ & C) I. apply keys_find_in in I. destruct I as [f F]. destruct (C x f F) as (I & _). split; auto. destruct (A x I) as (H1 & H2 & _). auto. Qed.
Lemma frame_call h o m x : frame_ok h o m -> In x (keys m) -> lookup x (fcons o) = Some (call_of x).
Proof.
  intros (A & _ & C) I. apply keys_find_in in I. destruct I as [f F]. destruct (C x f F) as (I & _ & b & Lb & _). destruct (A x I) as (_ & _ & H & _).
  apply H. rewrite lookup_find_at in Lb. eapply find_in_keys; eauto.
Qed.
Lemma frame_entry h o m x : frame_ok h o m -> In x (keys m) -> In x (keys (ffuns o)).
Proof. intros (A & _ & C) I. apply keys_find_in in I. destruct I as [f F]. destruct (C x f F) as (_ & _ & b & Lb & _). rewrite lookup_find_at in Lb. eapply find_in_keys; eauto. Qed.
Lemma chain_names L h fr x : chain L h fr -> In x (keys (env_of fr)) -> name_ok x /\ find_at x fs = None.
Proof.
  induction 1 as [a o m La Pa N C F|a o m c p mp fr Ch IH N C Se Lt F D]; intros I.
  - cbn in I. destruct (frame_names _ _ _ _ F I) as (_ & H). exact H.
  - change (env_of ((a, m) :: (p, mp) :: fr)) with (env_of ((p, mp) :: fr) ++ m) in I. rewrite keys_app, in_app_iff in I.
    destruct I as [I|I]; auto. destruct (frame_names _ _ _ _ F I) as (_ & H). exact H.
Qed.
Lemma chain_low L h a m fr : chain L h ((a, m) :: fr) -> L <= a /\ 0 < a.
Proof.
  intros H. remember ((a, m) :: fr) as l. revert a m fr Heql.
  induction H as [a o m La Pa N C F|a o m c p mp fr Ch IH N C Se Lt F D]; intros a' m' fr' H'; injection H' as ? ? ?; subst; auto.
  specialize (IH _ _ _ eq_refl). destruct Se as [->|[Lp _]]; lia.
Qed.
Lemma chain_head L h a m fr : chain L h ((a, m) :: fr) -> exists o, nth_error h a = Some o /\ frame_ok h o m.
Proof. inversion 1; subst; eauto. Qed.
Lemma frame_skip h o m x : frame_ok h o m -> name_ok x -> ~ In x (keys (fcons o)) -> lookup x (ffuns o) = None /\ lookup x (fcons o) = None.
Proof. intros (_ & B & _) N I. split; rewrite lookup_find_at; apply find_at_none; auto. Qed.
Lemma find_sees {A} n (fld : fobj -> list (string * A)) h cur p x w :
  (forall fo, fcons fo = [] -> blind (ffuns fo) -> lookup x (fld fo) = None) ->
  sees h cur p -> find_in n fld h (Some cur) x = Done w -> exists n', find_in n' fld h (Some p) x = Done w.
Proof.
  intros B [->|[_ (fo & N & C & K & Bl)]]; [eauto|]. destruct n as [|n]; [discriminate|]. cbn [find_in]. unfold fetch. rewrite N. cbn [get bind].
  rewrite B, C by auto. eauto.
Qed.
Lemma blind_funs x fo : name_ok x -> fcons fo = [] -> blind (ffuns fo) -> lookup x (ffuns fo) = None.
Proof. auto. Qed.
Lemma blind_cons x fo : name_ok x -> fcons fo = [] -> blind (ffuns fo) -> lookup x (fcons fo) = None.
Proof. intros _ -> _. reflexivity. Qed.

(** Lookups *)
Lemma chain_find_fun L h fr : chain L h fr -> forall a m fr' x f n w, fr = (a, m) :: fr' -> find_at x (env_of fr) = Some f ->
  find_in n ffuns h (Some a) x = Done w -> exists o b, w = Some (o, b) /\ stored_at h b f /\ good f.
Proof.
  induction 1 as [a o m La Pa N C F|a o m c p mp fr Ch IH N C Se Lt F D]; intros a' m' fr' x f n w [= <- <- <-] E W;
    (destruct n as [|n]; [discriminate|]); cbn [find_in] in W; unfold fetch in W; rewrite N in W; cbn [get bind] in W.
  - cbn in E. destruct F as (_ & _ & F). destruct (F x f E) as (_ & G & b & Lb & Sb). rewrite Lb in W. injection W as <-. eauto.
  - change (env_of ((a, m) :: (p, mp) :: fr)) with (env_of ((p, mp) :: fr) ++ m) in E. rewrite find_at_app in E.
    destruct (find_at x (env_of ((p, mp) :: fr))) as [f'|] eqn:Ex.
    + injection E as ->. assert (Ix := find_in_keys _ _ _ Ex). destruct (chain_names _ _ _ _ Ch Ix) as [Nx _].
      destruct (frame_skip _ _ _ _ F Nx) as [S1 _]. { intros I. exact (D x I Ix). } rewrite S1, C in W.
      destruct (find_sees _ _ _ _ _ _ _ (fun fo => blind_funs x fo Nx) Se W) as [n' W']. eapply IH; eauto.
    + destruct F as (_ & _ & F). destruct (F x f E) as (_ & G & b & Lb & Sb). rewrite Lb in W. injection W as <-. eauto.
Qed.
Lemma chain_find_con L h fr : chain L h fr -> forall a m fr' x n w, fr = (a, m) :: fr' -> In x (keys (env_of fr)) ->
  find_in n fcons h (Some a) x = Done w -> exists o, w = Some (o, call_of x).
Proof.
  induction 1 as [a o m La Pa N C F|a o m c p mp fr Ch IH N C Se Lt F D]; intros a' m' fr' x n w [= <- <- <-] E W;
    (destruct n as [|n]; [discriminate|]); cbn [find_in] in W; unfold fetch in W; rewrite N in W; cbn [get bind] in W.
  - cbn in E. rewrite (frame_call _ _ _ _ F E) in W. injection W as <-. eauto.
  - change (env_of ((a, m) :: (p, mp) :: fr)) with (env_of ((p, mp) :: fr) ++ m) in E. rewrite keys_app, in_app_iff in E.
    destruct (in_dec string_dec x (keys (env_of ((p, mp) :: fr)))) as [Ix|Nx'].
    + destruct (chain_names _ _ _ _ Ch Ix) as [Nx _].
      destruct (frame_skip _ _ _ _ F Nx) as [_ S1]. { intros I. exact (D x I Ix). } rewrite S1, C in W.
      destruct (find_sees _ _ _ _ _ _ _ (fun fo => blind_cons x fo Nx) Se W) as [n' W']. eapply IH; eauto.
    + destruct E as [E|E]; [easy|]. rewrite (frame_call _ _ _ _ F E) in W. injection W as <-. eauto.
Qed.
(** Every name found is declared in the function. *)
Lemma chain_known L h fr : (forall g, nth_error h 0 = Some g -> fcons g = [] /\ fctx g = None) -> chain L h fr -> forall a m fr' x n w, fr = (a, m) :: fr' -> name_ok x ->
  find_in n fcons h (Some a) x = Done (Some w) -> In x ns.
Proof.
  intros G. induction 1 as [a o m La Pa N C F|a o m c p mp fr Ch IH N C Se Lt F D]; intros a' m' fr' x n w [= <- <- <-] Nx W;
    (destruct n as [|n]; [discriminate|]); cbn [find_in] in W; unfold fetch in W; rewrite N in W; cbn [get bind] in W;
    (destruct (lookup x (fcons o)) as [k|] eqn:Lk; [rewrite lookup_find_at in Lk; apply find_in_keys in Lk; apply F; exact Lk|]); rewrite C in W.
  - destruct n as [|n]; [discriminate|]. cbn [find_in] in W. unfold fetch in W. destruct (nth_error h 0) as [g|] eqn:Ng; [|discriminate]. cbn [get bind] in W.
    destruct (G g eq_refl) as [G1 G2]. rewrite G1, G2 in W. destruct n; discriminate W.
  - destruct (find_sees _ _ _ _ _ _ _ (fun fo => blind_cons x fo Nx) Se W) as [n' W']. eapply IH; eauto.
Qed.
Lemma chain_known_fun L h fr : (forall g, nth_error h 0 = Some g -> fctx g = None /\ forall x, name_ok x -> In x (keys (ffuns g)) -> find_at x fs <> None) ->
  chain L h fr -> forall a m fr' x n w, fr = (a, m) :: fr' -> name_ok x -> find_in n ffuns h (Some a) x = Done (Some w) -> In x ns \/ find_at x fs <> None.
Proof.
  intros G. induction 1 as [a o m La Pa N C F|a o m c p mp fr Ch IH N C Se Lt F D]; intros a' m' fr' x n w [= <- <- <-] Nx W;
    (destruct n as [|n]; [discriminate|]); cbn [find_in] in W; unfold fetch in W; rewrite N in W; cbn [get bind] in W;
    (destruct (lookup x (ffuns o)) as [k|] eqn:Lk; [rewrite lookup_find_at in Lk; apply find_in_keys in Lk; left; apply F; now apply F|]); rewrite C in W.
  - destruct n as [|n]; [discriminate|]. cbn [find_in] in W. unfold fetch in W. destruct (nth_error h 0) as [g|] eqn:Ng; [|discriminate]. cbn [get bind] in W.
    destruct (G g eq_refl) as [G1 G2]. destruct (lookup x (ffuns g)) as [k|] eqn:Lg; [rewrite lookup_find_at in Lg; apply find_in_keys in Lg; right; now apply G2|].
    rewrite G1 in W. destruct n; discriminate W.
  - destruct (find_sees _ _ _ _ _ _ _ (fun fo => blind_funs x fo Nx) Se W) as [n' W']. eapply IH; eauto.
Qed.
Lemma chain_find_global L h fr : chain L h fr -> forall a m fr' x n w, fr = (a, m) :: fr' -> name_ok x -> find_at x fs <> None ->
  find_in n ffuns h (Some a) x = Done w -> exists n', find_in n' ffuns h (Some 0) x = Done w.
Proof.
  induction 1 as [a o m La Pa N C F|a o m c p mp fr Ch IH N C Se Lt F D]; intros a' m' fr' x n w [= <- <- <-] Nx Nf W;
    (destruct n as [|n]; [discriminate|]); cbn [find_in] in W; unfold fetch in W; rewrite N in W; cbn [get bind] in W.
  all: (destruct (frame_skip _ _ _ _ F Nx) as [S1 _]; [intros I; destruct F as (F & _); destruct (F x I) as (_ & H & _); easy|]).
  all: rewrite S1, C in W.
  - eauto.
  - destruct (find_sees _ _ _ _ _ _ _ (fun fo => blind_funs x fo Nx) Se W) as [n' W']. eapply IH; eauto.
Qed.

(** Growing heaps *)
Lemma stored_agree h h' b f : (forall x o, nth_error h x = Some o -> fcons o = [] -> nth_error h' x = Some o) -> stored_at h b f -> stored_at h' b f.
Proof.
  intros G (o & N & C & I & M). exists o. split; auto. split; auto. split; auto.
  assert (V : forall f, vobj 0 h b f -> vobj 0 h' b f) by (intros f0; apply vobj_agree; intros; auto).
  destruct f as [|x [|y f]]; [destruct M; auto| |destruct M; auto]. destruct (is_number x); [destruct M as (M1 & M2 & M3); auto|destruct M; auto].
Qed.
Lemma frame_agree h h' o m : (forall x o, nth_error h x = Some o -> fcons o = [] -> nth_error h' x = Some o) -> frame_ok h o m -> frame_ok h' o m.
Proof.
  intros G (A & B & C). split; auto. split; auto. intros x f E. destruct (C x f E) as (C1 & C2 & b & C3 & C4). split; auto. split; auto.
  exists b. split; auto. eapply stored_agree; eauto.
Qed.
Lemma sees_agree h h' c p : (forall x o, nth_error h x = Some o -> fcons o = [] -> nth_error h' x = Some o) -> sees h c p -> sees h' c p.
Proof. intros G [E|[Lt (fo & N & H)]]; [now left|right]. split; auto. exists fo. destruct H as (H1 & H2 & H3). auto. Qed.
Lemma chain_agree L h fr : chain L h fr -> forall h' a m fr', fr = (a, m) :: fr' ->
  (forall x o, nth_error h x = Some o -> x <= a \/ fcons o = [] -> nth_error h' x = Some o) -> chain L h' fr.
Proof.
  induction 1 as [a o m La Pa N C F|a o m c p mp fr Ch IH N C Se Lt F D]; intros h' a' m' fr' [= <- <- <-] G.
  - eapply chain_fun; eauto. eapply frame_agree; [|exact F]. auto.
  - eapply chain_block; eauto.
    + eapply IH; [reflexivity|]. intros x ox Nx Hx. apply G; auto. destruct Hx as [Hx|Hx]; auto. left. destruct Se as [->|[Lp _]]; lia.
    + eapply sees_agree; [|exact Se]. auto.
    + eapply frame_agree; [|exact F]. auto.
Qed.
Lemma chain_older L h h' fr : older h h' -> chain L h fr -> chain L h' fr.
Proof. intros O C. destruct fr as [|[a m] fr]; [inversion C|]. eapply chain_agree; eauto. intros. eapply older_nth; eauto. Qed.

(** Assignment *)
Definition assigned (o : fobj) (x : string) (b : nat) : fobj := with_funs o (set_at x b (ffuns o)).
Lemma assigned_shape o x b : In x (keys (fcons o)) -> In x (keys (ffuns o)) -> same_shape o (assigned o x b).
Proof.
  intros I J. unfold same_shape, assigned. cbn. repeat split; auto; [now apply set_at_keys_old|].
  intros y Ny. rewrite lookup_set_at. destruct (String.eqb_spec y x) as [->|_]; [easy|reflexivity].
Qed.
Lemma keeps_assigned L h a o x b : L <= a -> nth_error h a = Some o -> In x (keys (fcons o)) -> In x (keys (ffuns o)) -> keeps L h (store h a (assigned o x b)).
Proof.
  intros La N I J. split; [now rewrite store_length|]. intros c oc Nc. rewrite nth_store. destruct (Nat.eqb_spec a c) as [<-|Ne].
  - assert (Lt := nth_lt _ _ _ N). apply Nat.ltb_lt in Lt. rewrite Lt. rewrite N in Nc. injection Nc as <-. exists (assigned o x b). split; auto.
    split; [now apply assigned_shape|]. intros [Lc|E]; [lia|]. rewrite E in I. destruct I.
  - exists oc. split; auto. split; [apply same_shape_refl|auto].
Qed.
Lemma frame_assigned h h' o m x b f : (forall y o, nth_error h y = Some o -> fcons o = [] -> nth_error h' y = Some o) ->
  frame_ok h o m -> In x (keys (fcons o)) -> In x (keys (ffuns o)) -> In x (keys m) -> good f -> stored_at h b f -> frame_ok h' (assigned o x b) (put_at x f m).
Proof.
  intros G (A & B & C) I Iu J Gf Sb. unfold assigned. split; [|split]; cbn [fcons ffuns with_funs].
  - intros y Iy. destruct (A y Iy) as (A1 & A2 & A3 & A4). split; auto. split; auto. split; auto. rewrite set_at_keys. intros [->|H]; auto.
  - intros y Ny Iy. rewrite set_at_keys in Iy. destruct Iy as [->|Iy]; auto.
  - intros y g E. rewrite find_put in E. rewrite lookup_set_at. destruct (String.eqb_spec y x) as [->|N].
    + destruct (find_at x m); [|discriminate]. injection E as <-. split; auto. split; auto. exists b. split; auto. eapply stored_agree; eauto.
    + destruct (C y g E) as (C1 & C2 & b' & C3 & C4). split; auto. split; auto. exists b'. split; auto. eapply stored_agree; eauto.
Qed.
Lemma frame_declared h h' o m x b f : (forall y o, nth_error h y = Some o -> fcons o = [] -> nth_error h' y = Some o) ->
  frame_ok h o m -> In x (keys (fcons o)) -> In x (keys (ffuns o)) -> ~ In x (keys m) -> good f -> stored_at h b f -> frame_ok h' (assigned o x b) (m ++ [(x, f)]).
Proof.
  intros G (A & B & C) I Iu J Gf Sb. unfold assigned. split; [|split]; cbn [fcons ffuns with_funs].
  - intros y Iy. destruct (A y Iy) as (A1 & A2 & A3 & A4). split; auto. split; auto. split; auto. rewrite set_at_keys. intros [->|H]; auto.
  - intros y Ny Iy. rewrite set_at_keys in Iy. destruct Iy as [->|Iy]; auto.
  - intros y g E. rewrite find_at_app in E. rewrite lookup_set_at. destruct (String.eqb_spec y x) as [->|N].
    + destruct (find_at x m) eqn:Ex; [apply find_in_keys in Ex; easy|]. cbn in E. rewrite String.eqb_refl in E. injection E as <-.
      split; auto. split; auto. exists b. split; auto. eapply stored_agree; eauto.
    + destruct (find_at y m) as [g'|] eqn:Ey; [|cbn in E; apply String.eqb_neq in N; rewrite N in E; discriminate]. injection E as ->.
      destruct (C y g Ey) as (C1 & C2 & b' & C3 & C4). split; auto. split; auto. exists b'. split; auto. eapply stored_agree; eauto.
Qed.
Definition same_frames (fr fr' : frames) : Prop := map fst fr' = map fst fr /\ map (fun p => keys (snd p)) fr' = map (fun p => keys (snd p)) fr.
Lemma same_frames_refl fr : same_frames fr fr.
Proof. now split. Qed.
Lemma same_frames_trans f1 f2 f3 : same_frames f1 f2 -> same_frames f2 f3 -> same_frames f1 f3.
Proof. intros [A B] [C D]. split; congruence. Qed.
Lemma same_frames_keys fr fr' : same_frames fr fr' -> keys (env_of fr') = keys (env_of fr).
Proof.
  revert fr'. induction fr as [|[a m] fr IH]; intros [|[a' m'] fr'] [A B]; try discriminate; auto. cbn [env_of map fst snd] in *.
  injection A as -> A. injection B as B1 B2. rewrite !keys_app. rewrite IH by now split. now rewrite B1.
Qed.

Lemma set_fun_store h o x b h' ob : set_fun h o x b = Done h' -> nth_error h o = Some ob -> h' = store h o (assigned ob x b).
Proof. unfold set_fun, fetch. intros E N. rewrite N in E. cbn in E. now injection E as <-. Qed.
Lemma chain_assign L h fr : chain L h fr -> forall a m fr' x f b n o b0 h', fr = (a, m) :: fr' -> In x (keys (env_of fr)) ->
  find_in n ffuns h (Some a) x = Done (Some (o, b0)) -> good f -> stored_at h b f -> set_fun h o x b = Done h' ->
  keeps L h h' /\ (forall y, a < y -> nth_error h' y = nth_error h y) /\
  exists fr2, chain L h' fr2 /\ same_frames fr fr2 /\ env_of fr2 = put_at x f (env_of fr).
Proof.
  assert (GG : forall a o x b, nth_error h a = Some o -> In x (keys (fcons o)) ->
      forall y oy, nth_error h y = Some oy -> fcons oy = [] -> nth_error (store h a (assigned o x b)) y = Some oy).
  { intros a o x b N I y oy Ny Ey. rewrite nth_store_ne; auto. intros <-. rewrite N in Ny. injection Ny as <-. rewrite Ey in I. destruct I. }
  induction 1 as [a o m La Pa N C F|a o m c p mp fr Ch IH N C Se Lt F D]; intros a' m' fr' x f b n o' b0 h' [= <- <- <-] E W Gf Sb H;
    (destruct n as [|n]; [discriminate|]); cbn [find_in] in W; unfold fetch in W; rewrite N in W; cbn [get bind] in W.
  - cbn in E. destruct (frame_names _ _ _ _ F E) as (I & Nx & _). assert (If := frame_entry _ _ _ _ F E).
    destruct (keys_find_in _ _ If) as [b1 Eb]. rewrite lookup_find_at, Eb in W. injection W as <- <-.
    rewrite (set_fun_store _ _ _ _ _ _ H N). split; [apply keeps_assigned; auto|]. split; [intros y Ly; apply nth_store_ne; lia|].
    exists [(a, put_at x f m)]. split; [|split; [|reflexivity]].
    + eapply (chain_fun L _ a (assigned o x b)); [exact La|exact Pa|apply nth_store_eq; eapply nth_lt; exact N|exact C|]. eapply (frame_assigned h); eauto.
    + split; cbn [map fst snd]; auto. now rewrite put_at_keys.
  - assert (H0 := chain_low L h p mp fr Ch). assert (Lpa : p < a) by (destruct Se as [->|[Lp _]]; lia).
    change (env_of ((a, m) :: (p, mp) :: fr)) with (env_of ((p, mp) :: fr) ++ m) in E |- *. rewrite keys_app, in_app_iff in E.
    destruct (in_dec string_dec x (keys (env_of ((p, mp) :: fr)))) as [Ix|Nx'].
    + destruct (chain_names _ _ _ _ Ch Ix) as [Nx _].
      destruct (frame_skip _ _ _ _ F Nx) as [S1 _]. { intros I. exact (D x I Ix). } rewrite S1, C in W.
      destruct (find_sees _ _ _ _ _ _ _ (fun fo => blind_funs x fo Nx) Se W) as [n' W'].
      destruct (IH p mp fr x f b n' o' b0 h' eq_refl Ix W' Gf Sb H) as (K & Ab & fr2 & Ch2 & Sf & Ev).
      split; auto. split; [intros y Ly; apply Ab; lia|]. destruct fr2 as [|[p2 m2] fr2]; [inversion Ch2|].
      assert (p2 = p) as -> by (destruct Sf as [Sf _]; cbn in Sf; congruence).
      assert (G : forall y oy, nth_error h y = Some oy -> fcons oy = [] -> nth_error h' y = Some oy).
      { intros y oy Ny Ey. destruct K as [_ K]. destruct (K y oy Ny) as (oy' & Ny' & _ & Eq). rewrite Eq in Ny' by auto. exact Ny'. }
      exists ((a, m) :: (p, m2) :: fr2). split; [|split].
      * eapply chain_block; [exact Ch2|rewrite Ab by auto; exact N|exact C|eapply sees_agree; eauto|exact Lt|eapply frame_agree; eauto|].
        intros y Iy. rewrite (same_frames_keys _ _ Sf). auto.
      * destruct Sf as [A B]. split; cbn in *; congruence.
      * change (env_of ((a, m) :: (p, m2) :: fr2)) with (env_of ((p, m2) :: fr2) ++ m). rewrite Ev. now rewrite put_at_app_l.
    + destruct E as [E|E]; [easy|]. destruct (frame_names _ _ _ _ F E) as (I & Nx & _). assert (If := frame_entry _ _ _ _ F E).
      destruct (keys_find_in _ _ If) as [b1 Eb]. rewrite lookup_find_at, Eb in W. injection W as <- <-.
      rewrite (set_fun_store _ _ _ _ _ _ H N).
      split; [apply keeps_assigned; auto; lia|]. split; [intros y Ly; apply nth_store_ne; lia|].
      exists ((a, put_at x f m) :: (p, mp) :: fr). split; [|split].
      * eapply (chain_block L _ a (assigned o x b)); [|apply nth_store_eq; eapply nth_lt; exact N|exact C|eapply sees_agree; [apply (GG a o x b N I)|exact Se]|exact Lt|eapply (frame_assigned h); eauto|exact D].
        eapply chain_agree; [exact Ch|reflexivity|]. intros y oy Ny Hy. destruct Hy as [Hy|Hy]; [rewrite nth_store_ne by lia; exact Ny|apply (GG a o x b N I); auto].
      * split; cbn [map fst snd]; auto. now rewrite put_at_keys.
      * change (env_of ((a, put_at x f m) :: (p, mp) :: fr)) with (env_of ((p, mp) :: fr) ++ put_at x f m). now rewrite put_at_app_r.
Qed.
Lemma chain_declare L h a m fr x f b n w h' o : chain L h ((a, m) :: fr) -> nth_error h a = Some o -> In x (keys (fcons o)) -> In x (keys (ffuns o)) ->
  ~ In x (keys (env_of ((a, m) :: fr))) -> find_in n ffuns h (Some a) x = Done (Some w) -> good f -> stored_at h b f -> set_fun h (fst w) x b = Done h' ->
  keeps L h h' /\ chain L h' ((a, m ++ [(x, f)]) :: fr).
Proof.
  intros Ch N I If Ne W Gf Sb H.
  assert (GG : forall y oy, nth_error h y = Some oy -> fcons oy = [] -> nth_error (store h a (assigned o x b)) y = Some oy).
  { intros y oy Ny Ey. rewrite nth_store_ne; auto. intros <-. rewrite N in Ny. injection Ny as <-. rewrite Ey in I. destruct I. }
  assert (Lo := chain_low _ _ _ _ _ Ch). destruct n as [|n]; [discriminate|]. cbn [find_in] in W. unfold fetch in W. rewrite N in W. cbn [get bind] in W.
  destruct (chain_head _ _ _ _ _ Ch) as (o1 & N1 & F). rewrite N in N1. injection N1 as <-.
  destruct (keys_find_in _ _ If) as [b1 Eb]. rewrite lookup_find_at, Eb in W. injection W as <-. cbn [fst] in H.
  rewrite (set_fun_store _ _ _ _ _ _ H N). split; [apply keeps_assigned; auto; lia|].
  cbn [env_of] in Ne. rewrite keys_app, in_app_iff in Ne.
  inversion Ch as [? o1 ? La Pa N1 C F0|? o1 ? c p mp fr1 Ch1 N1 C Se Lt F0 D]; subst; rewrite N in N1; injection N1 as <-.
  - eapply (chain_fun L _ a (assigned o x b)); [exact La|exact Pa|apply nth_store_eq; eapply nth_lt; exact N|exact C|]. apply (frame_declared h); auto.
  - assert (Lpa : p < a) by (destruct Se as [->|[Lp _]]; lia).
    eapply (chain_block L _ a (assigned o x b)); [|apply nth_store_eq; eapply nth_lt; exact N|exact C|eapply sees_agree; [apply GG|exact Se]|exact Lt|apply (frame_declared h); auto|exact D].
    eapply chain_agree; [exact Ch1|reflexivity|]. intros y oy Ny Hy. destruct Hy as [Hy|Hy]; [rewrite nth_store_ne by lia; exact Ny|apply GG; auto].
Qed.

(** The functions of the program *)
Definition world (h : heap) : Prop :=
  exists g, nth_error h 0 = Some g /\ (fcons g = [] /\ fctx g = None /\ forall x, name_ok x -> In x (keys (ffuns g)) -> find_at x fs <> None) /\
    forall f d, find_at f fs = Some d -> f <> "main" -> exists a, lookup f (ffuns g) = Some a /\ tree h a (Some 0) (fparams d) (fbody d).
Lemma world_keeps L h h' : keeps L h h' -> world h -> world h'.
Proof.
  intros K (g & N & C & W). destruct K as [Kl K]. destruct (K 0 g N) as (g' & N' & _ & Eq). rewrite Eq in N' by (right; apply C).
  exists g. split; auto. split; auto. intros f d E Nm. destruct (W f d E Nm) as (a & La & T). exists a. split; auto. eapply tree_keeps; [split; eauto|exact T].
Qed.
End P.
