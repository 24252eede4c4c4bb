(** MulSparseScalar and Combine (utils/sparsePolynomial.go:22-28, 189-194) update a tree while
    the goroutine started by ChannelNodes (utils/avl.go:228-267) is still walking it.  Here the
    two run as a small-step machine with one shared pointer heap, in all interleavings
    (sequentially consistent memory; the Go memory model gives racy programs no guarantee at
    all, so this is the best case).
    - Keys identify nodes (a node never changes its key).
    - The walker is its recursion stack; every read of a left or right pointer is one step.
    - The updater is the only writer.  Between two receives it performs one [Put(k, w, Mul)] on a
      key; the pointer writes of that Put are computed from its own view of the tree (nobody else
      writes) and are then performed one at a time.  Writes that store the pointer that is already
      there, and writes to values and heights, are omitted: the walker cannot observe them (the
      loop only uses the keys it receives). *)
Require Import ZArith NArith Bool List.
Require Import Verif.FqModel Verif.AvlModel Verif.SparseModel.
Import ListNotations.
Open Scope Z_scope.

Record heap := Heap { hroot : option N; hleft : N -> option N; hright : N -> option N }.

Inductive slot : Type := SRoot | SLeft (n : N) | SRight (n : N).
Definition write : Type := (slot * option N)%type.
Definition upd (f : N -> option N) (n : N) (x : option N) : N -> option N :=
  fun k => if N.eqb k n then x else f k.
Definition apply_write (m : heap) (w : write) : heap :=
  match w with
  | (SRoot, x) => Heap x (hleft m) (hright m)
  | (SLeft n, x) => Heap (hroot m) (upd (hleft m) n x) (hright m)
  | (SRight n, x) => Heap (hroot m) (hleft m) (upd (hright m) n x)
  end.
Definition apply_writes (m : heap) (ws : list write) : heap := fold_left apply_write ws m.

Definition tkey (t : tree) : option N := match t with Leaf => None | Node _ k _ _ _ => Some k end.
Definition okey (e : option (N * Z)) : option N := option_map fst e.

(** Pointer writes of removing a present key (avl.go:442-475 and 216-224): the graft, then the
    pointer to the removed node, held in [sl]. *)
Fixpoint rm_writes (t : tree) (key : N) (sl : slot) : list write :=
  match t with
  | Leaf => []
  | Node l k v h r =>
      if N.eqb k key then
        match l, r with
        | Leaf, _ => [(sl, tkey r)]
        | _, Leaf => [(sl, tkey l)]
        | _, _ => if Nat.ltb (size l) (size r)
                  then match lmd r with
                       | Some e => [(SLeft (fst e), tkey l); (sl, tkey r)]
                       | None => []
                       end
                  else match rmd l with
                       | Some e => [(SRight (fst e), tkey r); (sl, tkey l)]
                       | None => []
                       end
        end
      else if N.ltb key k then rm_writes l key (SLeft k) else rm_writes r key (SRight k)
  end.

(** Program points of channelNodesAscending, avl.go:251-267: the nil test of root.left, the
    second read of root.left, the send, the nil test of root.right, the second read. *)
Inductive frame : Type :=
| FLeft (n : N) | FLeft2 (n : N) | FSend (n : N) | FRight (n : N) | FRight2 (n : N).

(** [bad]: the updater panicked or received a key that is no longer in the tree (a case the
    machine does not follow further). *)
Record state := State {
  mem : heap; view : tree; pend : list write; stack : list frame; log : list N; bad : bool }.

Section Machine.
Variable q : Z.
(** Weight used for a key; [None]: index out of range. *)
Variable weight : N -> option Z.

Inductive step : state -> state -> Prop :=
| step_left : forall m t p n s lg,
    step (State m t p (FLeft n :: s) lg false)
         (State m t p (match hleft m n with Some _ => FLeft2 n :: s | None => FSend n :: s end) lg false)
| step_left2 : forall m t p n s lg,
    step (State m t p (FLeft2 n :: s) lg false)
         (State m t p (match hleft m n with Some c => FLeft c :: FSend n :: s | None => FSend n :: s end) lg false)
| step_send : forall m t n s lg x v t',
    weight n = Some x -> get t n = Some v -> tree_put t n x (mul_cb q) = Some t' ->
    step (State m t [] (FSend n :: s) lg false)
         (State m t' (if fmul q v x =? 0 then rm_writes t n SRoot else []) (FRight n :: s) (lg ++ [n]) false)
| step_bad : forall m t n s lg,
    (weight n = None \/ get t n = None) ->
    step (State m t [] (FSend n :: s) lg false) (State m t [] (FSend n :: s) lg true)
| step_right : forall m t p n s lg,
    step (State m t p (FRight n :: s) lg false)
         (State m t p (match hright m n with Some _ => FRight2 n :: s | None => s end) lg false)
| step_right2 : forall m t p n s lg,
    step (State m t p (FRight2 n :: s) lg false)
         (State m t p (match hright m n with Some c => FLeft c :: s | None => s end) lg false)
| step_write : forall m t w p s lg,
    step (State m t (w :: p) s lg false) (State (apply_write m w) t p s lg false).

(** Executions with their number of steps. *)
Inductive steps : nat -> state -> state -> Prop :=
| steps_0 : forall s, steps 0 s s
| steps_S : forall n s1 s2 s3, steps n s1 s2 -> step s2 s3 -> steps (S n) s1 s3.
End Machine.

(** The heap holds the tree t at pointer p. *)
Fixpoint repr (m : heap) (p : option N) (t : tree) : Prop :=
  p = tkey t /\
  match t with
  | Leaf => True
  | Node l k _ _ r => repr m (hleft m k) l /\ repr m (hright m k) r
  end.

Definition start (m : heap) (t : tree) : state :=
  State m t [] (match hroot m with Some k => [FLeft k] | None => [] end) [] false.
(** Both goroutines are done. *)
Definition finished (s : state) : Prop := stack s = [] /\ pend s = [].

(** A heap that holds t. *)
Fixpoint hl_of (t : tree) (n : N) : option N :=
  match t with
  | Leaf => None
  | Node l k _ _ r => if N.eqb n k then tkey l else if N.ltb n k then hl_of l n else hl_of r n
  end.
Fixpoint hr_of (t : tree) (n : N) : option N :=
  match t with
  | Leaf => None
  | Node l k _ _ r => if N.eqb n k then tkey r else if N.ltb n k then hr_of l n else hr_of r n
  end.
Definition heap_of (t : tree) : heap := Heap (tkey t) (hl_of t) (hr_of t).

(** The sequential outcome: one Put per key of the list, in order. *)
Fixpoint puts (q : Z) (weight : N -> option Z) (t : tree) (ks : list N) : option tree :=
  match ks with
  | [] => Some t
  | k :: ks' => match weight k with
                | Some x => match tree_put t k x (mul_cb q) with
                            | Some t' => puts q weight t' ks'
                            | None => None
                            end
                | None => None
                end
  end.
