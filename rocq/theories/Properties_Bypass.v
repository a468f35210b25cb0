(** C82: lines of states that the first rounds map to lines, and the degrees of the hashes on
    them.  Statements only; proofs in [Bypass.v], [BypassShipped.v] and [BypassZero.v];
    instances in [BypassExamples.v].  The notions are defined in [BypassSpec.v], [SymmetrySpec.v],
    [ActiveSpec.v] and [DegreeSpec.v]. *)
From Coq Require Import ZArith.
From mathcomp Require Import all_ssreflect all_algebra.
From Verif Require Import Base Fq Matrix MatrixSpec Params RateChecks ActiveSpec DegreeSpec DegreeShipped SymmetrySpec BypassSpec Bypass BypassShipped BypassTable BypassZero.
Import GRing.Theory.
Local Open Scope ring_scope.

(** ** One round: the words that change vanish together at one point of the line *)
Theorem C82_power_line (F : fieldType) (e : nat) (rs : seq F) : (2 <= e)%N -> e%:R != 0 :> F -> uniq rs -> size rs = e.+1 ->
  forall t (x v : 'cV[F]_t), straight (powers e) x v <-> exists u0, forall i, v i 0 != 0 -> x i 0 + u0 * v i 0 = 0.
Proof. exact: power_line. Qed.
Theorem C82_round_line (F : fieldType) (e : nat) (rs : seq F) : (2 <= e)%N -> e%:R != 0 :> F -> uniq rs -> size rs = e.+1 ->
  forall t (M : 'M[F]_t) (c x v : 'cV[F]_t), M \in unitmx ->
  straight (full e M c) x v <-> exists u0, forall i, v i 0 != 0 -> x i 0 + c i 0 + u0 * v i 0 = 0.
Proof. exact: round_line. Qed.

(** ** Two rounds, along one word *)
Theorem C82_two_rounds (F : fieldType) (e : nat) (rs : seq F) : (2 <= e)%N -> e%:R != 0 :> F -> uniq rs -> size rs = e.+1 ->
  forall t, bijective (fun z : F => z ^+ e) -> forall (M : 'M[F]_t) (c c' : 'cV[F]_t), M \in unitmx ->
  forall (x : 'cV[F]_t) j, (forall i, M i j != 0) ->
  straight (fun z => full e M c' (full e M c z)) x (delta_mx j 0) <->
  (forall k, k != j -> (x k 0 + c k 0) ^+ e = - (invmx M *m c') k 0).
Proof. exact: two_round_line. Qed.
Theorem C82_state (F : fieldType) (e t : nat) (M : 'M[F]_t) (c c' : 'cV[F]_t) : M \in unitmx ->
  forall (x : 'cV[F]_t) j u, (forall k, k != j -> (x k 0 + c k 0) ^+ e = - (invmx M *m c') k 0) ->
  full e M c' (full e M c (x + u *: delta_mx j 0)) =
  ((x j 0 + c j 0 + u) ^+ e + (invmx M *m c') j 0) ^+ e *: (M *m powers e (M *m delta_mx j 0)).
Proof. exact: two_round_state. Qed.

(** These are the lines through the state that the two rounds map to 0. *)
Theorem C82_zero_line (F : fieldType) (e : nat) (rs : seq F) : (2 <= e)%N -> e%:R != 0 :> F -> uniq rs -> size rs = e.+1 ->
  forall t, bijective (fun z : F => z ^+ e) -> forall (M : 'M[F]_t) (c c' : 'cV[F]_t), M \in unitmx ->
  forall (x : 'cV[F]_t) j, (forall i, M i j != 0) ->
  straight (fun z => full e M c' (full e M c z)) x (delta_mx j 0) <->
  exists u, full e M c' (full e M c (x + u *: delta_mx j 0)) = 0.
Proof. exact: zero_line. Qed.

(** ** The shipped parameters *)
Section Shipped.
Context (p : params Fq_fieldType).
Let t1 := p_t1 p.
Let M := toM (1 + t1) (1 + t1) (p_mds p).
Let c r := \col_(i < 1 + t1) nth 0 (elements (p_arc p)) (r * (1 + t1) + i).

Theorem C82_shipped_round r (x v : 'cV[Fq]_(1 + t1)) : List.In p shipped ->
  straight (full 17 M (c r)) x v <-> exists u0, forall i, v i 0 != 0 -> x i 0 + c r i 0 + u0 * v i 0 = 0.
Proof. move=> hp; exact: (shipped_round_line hp). Qed.
Theorem C82_shipped_two r j : List.In p shipped -> exists x0 : 'cV[Fq]_(1 + t1), forall x : 'cV[Fq]_(1 + t1),
  straight (fun z => full 17 M (c r.+1) (full 17 M (c r) z)) x (delta_mx j 0) <-> (forall k, k != j -> x k 0 = x0 k 0).
Proof. move=> hp; exact: (shipped_two hp). Qed.
Theorem C82_first_two j : List.In p shipped -> exists x0 : 'cV[Fq]_(1 + t1), forall x : 'cV[Fq]_(1 + t1),
  straight (after (fun x : Fq => x ^+ 17) M c 4 31 2) x (delta_mx j 0) <-> (forall k, k != j -> x k 0 = x0 k 0).
Proof. move=> hp; exact: (shipped_first_two hp). Qed.
Theorem C82_shipped_zero_line (x : 'cV[Fq]_(1 + t1)) j : List.In p shipped ->
  straight (after (fun x : Fq => x ^+ 17) M c 4 31 2) x (delta_mx j 0) <->
  exists u, after (fun x : Fq => x ^+ 17) M c 4 31 2 (x + u *: delta_mx j 0) = 0.
Proof. move=> hp; exact: (shipped_zero_line hp). Qed.
(** The state in question, from a table *)
Let z : 'cV[Fq]_(1 + t1) := \col_k Fq_of_Z (nth 0%Z (nth [::] zero_states (1 + t1)) k).
Theorem C82_zero_state : List.In p shipped -> after (fun x : Fq => x ^+ 17) M c 4 31 2 z = 0.
Proof. move=> hp; exact: (shipped_zero_state hp). Qed.
Theorem C82_zero_lines (x : 'cV[Fq]_(1 + t1)) j : List.In p shipped ->
  straight (after (fun x : Fq => x ^+ 17) M c 4 31 2) x (delta_mx j 0) <-> (forall k, k != j -> x k 0 = z k 0).
Proof. move=> hp; exact: (shipped_zero_lines hp). Qed.
Theorem C82_degree (x : 'cV[Fq]_(1 + t1)) j i k : List.In p shipped ->
  straight (after (fun x : Fq => x ^+ 17) M c 4 31 2) x (delta_mx j 0) -> (k <= 37)%N ->
  exists2 Q : {poly Fq}, size Q = (17 ^ k).+1 &
  forall u, after (fun x : Fq => x ^+ 17) M c 4 31 k.+2 (with_word x j u) i 0
    = Q.[((u + c 0%N j 0) ^+ 17 + (invmx M *m c 1%N) j 0) ^+ 17].
Proof. move=> hp; exact: (shipped_bypass hp). Qed.
End Shipped.

(** ** The hashes: for each word j, other words with which the hash has degree 17^37 in a
    one-to-one function of word j *)
Theorem C82_hash n j : (1 < n <= 8)%N -> (j < n)%N ->
  exists (l : seq Fq) (a b : Fq) (Q : {poly Fq}), [/\ size l = n, size Q = (17 ^ 37).+1 &
    forall u, hash_on (set_nth 0 l j u) = Ret Q.[((u + a) ^+ 17 + b) ^+ 17]].
Proof. exact: hash_bypass. Qed.
Theorem C82_zero_hash n j : (1 < n <= 8)%N -> (j < n)%N ->
  exists (a b : Fq) (Q : {poly Fq}), size Q = (17 ^ 37).+1 /\
    forall u, hash_on (set_nth 0 (map Fq_of_Z (nth [::] zero_states n)) j u) = Ret Q.[((u + a) ^+ 17 + b) ^+ 17].
Proof. exact: hash_zero_state. Qed.
Theorem C82_one_to_one a b : injective (fun u : Fq => ((u + a) ^+ 17 + b) ^+ 17).
Proof. exact: twice_inj. Qed.
Theorem C82_values n j : (1 < n <= 8)%N -> (j < n)%N ->
  exists l : seq Fq, size l = n /\ forall (y : Fq) (xs : seq Fq), uniq xs ->
    (forall u, u \in xs -> hash_on (set_nth 0 l j u) = Ret y) -> (size xs <= 17 ^ 37)%N.
Proof. exact: hash_bypass_values. Qed.

Print Assumptions C82_power_line.
Print Assumptions C82_round_line.
Print Assumptions C82_two_rounds.
Print Assumptions C82_state.
Print Assumptions C82_zero_line.
Print Assumptions C82_shipped_round.
Print Assumptions C82_shipped_two.
Print Assumptions C82_first_two.
Print Assumptions C82_shipped_zero_line.
Print Assumptions C82_zero_state.
Print Assumptions C82_zero_lines.
Print Assumptions C82_degree.
Print Assumptions C82_hash.
Print Assumptions C82_zero_hash.
Print Assumptions C82_one_to_one.
Print Assumptions C82_values.
