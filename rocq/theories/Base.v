(** Outcomes, arrays and loops: the small vocabulary in which the Rust code is
    modelled.  Nothing here is specific to the repository. *)
From mathcomp Require Import all_ssreflect.
Set Implicit Arguments.
Unset Strict Implicit.
Unset Printing Implicit Defensive.

(** The result of running a piece of Rust code: a value, or a panic
    ([panic!], failed [assert!], out-of-bounds index, integer underflow,
    [expect] on [None]/[Err], [unimplemented!], [todo!]). *)
Inductive outcome (A : Type) : Type :=
| Ret of A
| Panic.
Arguments Panic {A}.

Definition bind {A B} (m : outcome A) (k : A -> outcome B) : outcome B :=
  match m with Ret a => k a | Panic => Panic end.

Declare Scope rust_scope.
Delimit Scope rust_scope with rust.
Notation "x <- m ;; k" := (bind m (fun x => k))
  (at level 61, m at next level, right associativity) : rust_scope.
Notation "' p <- m ;; k" := (bind m (fun x => let p := x in k))
  (at level 61, p pattern, m at next level, right associativity) : rust_scope.
Notation "m ;;; k" := (bind m (fun _ => k))
  (at level 61, right associativity) : rust_scope.

Definition omap {A B} (f : A -> B) (m : outcome A) : outcome B :=
  match m with Ret a => Ret (f a) | Panic => Panic end.

(** [assert!(b)] *)
Definition require (b : bool) : outcome unit := if b then Ret tt else Panic.

(** Indexing [a[i]] and assignment [a[i] = v] of an array or slice. *)
Fixpoint aget {A} (a : seq A) (i : nat) : outcome A :=
  match a, i with
  | x :: _, 0 => Ret x
  | _ :: a', i'.+1 => aget a' i'
  | [::], _ => Panic
  end.

Fixpoint aset {A} (a : seq A) (i : nat) (v : A) : outcome (seq A) :=
  match a, i with
  | _ :: a', 0 => Ret (v :: a')
  | x :: a', i'.+1 => omap (cons x) (aset a' i' v)
  | [::], _ => Panic
  end.

(** Subslices [a[lo..hi]]: panics when [lo > hi] or [hi > len]. *)
Definition aslice {A} (a : seq A) (lo hi : nat) : outcome (seq A) :=
  if (lo <= hi) && (hi <= size a) then Ret (take (hi - lo) (drop lo a)) else Panic.

(** [usize] subtraction (debug builds panic on underflow; in release builds the
    wrapped value drives a loop that indexes out of bounds). *)
Definition usub (a b : nat) : outcome nat := if b <= a then Ret (a - b) else Panic.

(** [for x in xs { s = body(x, s) }] *)
Fixpoint for_in {T S} (xs : seq T) (body : T -> S -> outcome S) (s : S) : outcome S :=
  match xs with
  | [::] => Ret s
  | x :: xs' => bind (body x s) (for_in xs' body)
  end.

(** The half-open range [lo..hi]. *)
Definition range (lo hi : nat) : seq nat := iota lo (hi - lo).

(** [xs.iter().enumerate()] *)
Definition enumerate {A} (xs : seq A) : seq (nat * A) := zip (iota 0 (size xs)) xs.

(** [xs.chunks(n)]: panics when [n = 0]; the last chunk may be shorter. *)
Fixpoint chunks_rec {A} (fuel n : nat) (xs : seq A) : seq (seq A) :=
  match fuel, xs with
  | _, [::] => [::]
  | 0, _ => [::]
  | fuel'.+1, _ => take n xs :: chunks_rec fuel' n (drop n xs)
  end.
Definition chunks {A} (n : nat) (xs : seq A) : outcome (seq (seq A)) :=
  if n == 0 then Panic else Ret (chunks_rec (size xs) n xs).

(** * Facts *)

Lemma bind_ret A B (a : A) (k : A -> outcome B) : bind (Ret a) k = k a.
Proof. by []. Qed.

Lemma bindA A B C (m : outcome A) (f : A -> outcome B) (g : B -> outcome C) :
  bind (bind m f) g = bind m (fun x => bind (f x) g).
Proof. by case: m. Qed.

Lemma bind_ext A B (m : outcome A) (f g : A -> outcome B) :
  (forall x, f x = g x) -> bind m f = bind m g.
Proof. by case: m => //= a. Qed.

Lemma omap_bind A B (f : A -> B) m : omap f m = bind m (fun x => Ret (f x)).
Proof. by case: m. Qed.

Lemma bind_Panic_r A B (m : outcome A) : bind m (fun _ => @Panic B) = Panic.
Proof. by case: m. Qed.

Lemma agetE A (d : A) a i : aget a i = if i < size a then Ret (nth d a i) else Panic.
Proof. by elim: a i => [|x a IH] [|i] //=; rewrite IH. Qed.

Lemma aget_nth A (d : A) a i : i < size a -> aget a i = Ret (nth d a i).
Proof. by rewrite (agetE d) => ->. Qed.

Lemma aget_oob A (a : seq A) i : size a <= i -> aget a i = Panic.
Proof. by elim: a i => [|x a IH] [|i] //=; apply: IH. Qed.

Lemma aset_set_nth A (d : A) a i v :
  aset a i v = if i < size a then Ret (set_nth d a i v) else Panic.
Proof. by elim: a i => [|x a IH] [|i] //=; rewrite IH ltnS; case: ifP. Qed.

Lemma aset_oob A (a : seq A) i v : size a <= i -> aset a i v = Panic.
Proof. by elim: a i => [|x a IH] [|i] //= H; rewrite IH. Qed.

Lemma aset_cat A (a b : seq A) x v : aset (a ++ x :: b) (size a) v = Ret (a ++ v :: b).
Proof. by elim: a => //= y a ->. Qed.

Lemma aset_size A (a a' : seq A) i v : aset a i v = Ret a' -> size a' = size a.
Proof.
elim: a a' i => [|x a IH] a' [|i] //=; first by case=> <-.
by case E: (aset a i v) => [b|] //= [<-] /=; rewrite (IH _ _ E).
Qed.

Lemma usubE a b : b <= a -> usub a b = Ret (a - b).
Proof. by rewrite /usub => ->. Qed.

Lemma for_in_cat T S (xs ys : seq T) (body : T -> S -> outcome S) s :
  for_in (xs ++ ys) body s = bind (for_in xs body s) (for_in ys body).
Proof. by elim: xs s => //= x xs IH s; rewrite bindA; apply: bind_ext => s'; rewrite IH. Qed.

Lemma for_in_rcons T S (xs : seq T) x (body : T -> S -> outcome S) s :
  for_in (rcons xs x) body s = bind (for_in xs body s) (body x).
Proof. by rewrite -cats1 for_in_cat; apply: bind_ext => s' /=; case: (body x s'). Qed.

Lemma eq_in_for_in (T : eqType) S (xs : seq T) (f g : T -> S -> outcome S) s :
  (forall x s, x \in xs -> f x s = g x s) -> for_in xs f s = for_in xs g s.
Proof.
elim: xs s => //= x xs IH s H; rewrite H ?mem_head //; apply: bind_ext => s'.
by apply: IH => y s'' yin; rewrite H // inE yin orbT.
Qed.

Lemma for_in_map T U S (h : U -> T) (xs : seq U) (f : T -> S -> outcome S) s :
  for_in (map h xs) f s = for_in xs (fun x => f (h x)) s.
Proof. by elim: xs s => //= x xs IH s; apply: bind_ext => s'. Qed.

(** A loop whose body never panics while an invariant holds. *)
Lemma for_in_ret T S (xs : seq T) (f : T -> S -> outcome S) (g : T -> S -> S)
    (P : S -> Prop) s :
  P s -> (forall x s, P s -> f x s = Ret (g x s) /\ P (g x s)) ->
  for_in xs f s = Ret (foldl (fun s x => g x s) s xs).
Proof.
move=> Ps H; elim: xs s Ps => //= x xs IH s Ps.
by have [-> Pg] := H x s Ps; rewrite /= IH.
Qed.

Lemma size_range lo hi : size (range lo hi) = hi - lo.
Proof. exact: size_iota. Qed.

Lemma chunks_rec_nil A fuel n : @chunks_rec A fuel n [::] = [::].
Proof. by case: fuel. Qed.

(** A flattened list of equally long nonempty rows is chunked back into its rows. *)
Lemma chunks_flatten A n (rows : seq (seq A)) :
  0 < n -> all (fun r => size r == n) rows -> chunks n (flatten rows) = Ret rows.
Proof.
move=> n0; rewrite /chunks; case: n n0 => // n _ H; congr Ret.
set fuel := size _; have: size (flatten rows) <= fuel by [].
elim: rows fuel H => [|r rows IH] fuel /=; first by rewrite chunks_rec_nil.
case/andP=> /eqP sr H; rewrite size_cat sr.
case: fuel => //= fuel Hf.
case E: (r ++ _) => [|x xs]; first by move: sr; case: (r) E.
rewrite -E take_size_cat // drop_size_cat // IH //.
by move: Hf; rewrite addSn ltnS; apply: leq_trans; rewrite leq_addl.
Qed.
