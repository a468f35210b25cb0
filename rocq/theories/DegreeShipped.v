(** Exact degrees of the shipped permutations and of the hash functions. *)
From Coq Require Import ZArith NArith Lia.
From mathcomp Require Import all_ssreflect all_algebra.
From Verif Require Import Base Fq Matrix MatrixSpec MatrixProofs Params Permutation PermutationProofs Spec Cauchy SBox RateChecks Shipped Rate1 Rate2 Rate3 Rate4 Rate5 Rate6 Rate7 Hash PoseidonProps.
From Verif Require Import ActiveSpec ActiveProofs ActiveShipped DegreeSpec DegreeProofs DegreeCheck.
Set Implicit Arguments.
Unset Strict Implicit.
Unset Printing Implicit Defensive.
Import GRing.Theory.
Local Open Scope ring_scope.
Delimit Scope Z_scope with Z.

Lemma exact_degree_eq (F : fieldType) (f g : F -> F) d : f =1 g -> exact_degree g d -> exact_degree f d.
Proof. by move=> E [p sp h]; exists p => // x; rewrite E. Qed.

Section Shipped.
Variable p : params Fq_fieldType.
Hypothesis hp : List.In p shipped.
Local Notation t1 := (p_t1 p).
Local Notation M := (toM (1 + t1) (1 + t1) (p_mds p)).
Local Notation S17 := (fun x : Fq => x ^+ 17).
Local Notation arc := (fun r => \col_(i < 1 + t1) nth 0 (elements (p_arc p)) (r * (1 + t1) + i)).

Lemma shipped_degree (s : 'cV[Fq]_(1 + t1)) (j i : 'I_(1 + t1)) k : (0 < k <= 39)%N ->
  exact_degree (fun x : Fq_fieldType => after S17 M arc 4 31 k (with_word s j x) i 0) (17 ^ k).
Proof.
have [ht /andP [h1 h7] _ _ _] := shipped_spec hp => hk.
apply: after_exact => // j' r hr; rewrite (shipped_mds hp).
have hc : check_degree t1.+1 by apply: (allP check_2_8); rewrite mem_iota !ltnS h1.
exact: (check_degreeP hc j' hr).
Qed.

Lemma toV_set (inp : seq Fq) (j : 'I_(1 + t1)) x : toV (1 + t1) (set_nth 0 inp j x) = with_word (toV (1 + t1) inp) j x.
Proof. by apply/colP => i; rewrite !mxE nth_set_nth. Qed.

Lemma size_set (inp : seq Fq) j x : size inp = p_t p -> (j < p_t p)%N -> size (set_nth 0 inp j x) = p_t p.
Proof. by move=> sz h; rewrite size_set_nth sz; apply/maxn_idPr. Qed.

Lemma permute_set (inp : seq Fq) (j : 'I_(1 + t1)) x : size inp = p_t p ->
  permute p (set_nth 0 inp j x) = Ret (ofV (after S17 M arc 4 31 39 (with_word (toV (1 + t1) inp) j x))).
Proof.
move=> sz; have [ht _ _ _ _] := shipped_spec hp; rewrite -toV_set -(shipped_after hp) ofV_toV //.
by rewrite size_set // ht.
Qed.

(** The words of the permutation's result, as functions of one word of its input *)
Lemma permute_degree (inp : seq Fq) j i : size inp = p_t p -> (j < p_t p)%N -> (i < p_t p)%N ->
  exact_degree (fun x : Fq_fieldType => if permute p (set_nth 0 inp j x) is Ret s then nth 0 s i else 0) (17 ^ 39).
Proof.
move=> sz; have [ht _ _ _ _] := shipped_spec hp; rewrite ht => hj hi.
apply: exact_degree_eq (shipped_degree (toV _ inp) (Ordinal hj) (Ordinal hi) (k := 39) isT) => x.
by rewrite -[j in set_nth _ _ j]/(val (Ordinal hj)) permute_set // -[i in nth _ _ i]/(val (Ordinal hi)) nth_ofV.
Qed.

Lemma textbook_degree (inp : seq Fq) j : size inp = p_t p -> (j < p_t p)%N ->
  exact_degree (fun x : Fq_fieldType => textbook_hash t1 (elements (p_arc p)) (set_nth 0 inp j x)) (17 ^ 39).
Proof.
move=> sz; have [ht /andP [h1 _] _ _ _] := shipped_spec hp; rewrite ht => hj.
have hi : (1 < 1 + t1)%N by [].
apply: exact_degree_eq (shipped_degree (toV _ inp) (Ordinal hj) (Ordinal hi) (k := 39) isT) => x.
rewrite /textbook_hash -[j in set_nth _ _ j]/(val (Ordinal hj)) toV_set -(shipped_mds hp).
by rewrite (nth_ofV _ (Ordinal hi)) -[39%N]/(4 + 31 + 4)%N after_poseidon.
Qed.
End Shipped.

(** The hash of the domain separator followed by the inputs *)
Definition hash_on (l : seq Fq) : outcome Fq :=
  match l with
  | [:: ds; v0] => hash_1 ds v0
  | [:: ds; v0; v1] => hash_2 ds (v0, v1)
  | [:: ds; v0; v1; v2] => hash_3 ds (v0, v1, v2)
  | [:: ds; v0; v1; v2; v3] => hash_4 ds (v0, v1, v2, v3)
  | [:: ds; v0; v1; v2; v3; v4] => hash_5 ds (v0, v1, v2, v3, v4)
  | [:: ds; v0; v1; v2; v3; v4; v5] => hash_6 ds (v0, v1, v2, v3, v4, v5)
  | [:: ds; v0; v1; v2; v3; v4; v5; v6] => hash_7 ds (v0, v1, v2, v3, v4, v5, v6)
  | _ => Panic
  end.

Lemma hash_onE (l : seq Fq) : (1 < size l <= 8)%N ->
  exists p, [/\ List.In p shipped, p_t p = size l
    & forall l', size l' = size l -> hash_on l' = Ret (textbook_hash (p_t1 p) (elements (p_arc p)) l')].
Proof.
case: l => [h|a0 l]; first by discriminate h.
case: l => [h|a1 l]; first by discriminate h.
case: l => [|a2 l].
  move=> _; exists RATE_1_PARAMS; split; [exact in1|reflexivity|].
  case=> [|b0 [|b1 [|? ?]]] h; try discriminate h; exact (hash_1E b0 b1).
case: l => [|a3 l].
  move=> _; exists RATE_2_PARAMS; split; [exact in2|reflexivity|].
  case=> [|b0 [|b1 [|b2 [|? ?]]]] h; try discriminate h; exact (hash_2E b0 b1 b2).
case: l => [|a4 l].
  move=> _; exists RATE_3_PARAMS; split; [exact in3|reflexivity|].
  case=> [|b0 [|b1 [|b2 [|b3 [|? ?]]]]] h; try discriminate h; exact (hash_3E b0 b1 b2 b3).
case: l => [|a5 l].
  move=> _; exists RATE_4_PARAMS; split; [exact in4|reflexivity|].
  case=> [|b0 [|b1 [|b2 [|b3 [|b4 [|? ?]]]]]] h; try discriminate h; exact (hash_4E b0 b1 b2 b3 b4).
case: l => [|a6 l].
  move=> _; exists RATE_5_PARAMS; split; [exact in5|reflexivity|].
  case=> [|b0 [|b1 [|b2 [|b3 [|b4 [|b5 [|? ?]]]]]]] h; try discriminate h; exact (hash_5E b0 b1 b2 b3 b4 b5).
case: l => [|a7 l].
  move=> _; exists RATE_6_PARAMS; split; [exact in6|reflexivity|].
  case=> [|b0 [|b1 [|b2 [|b3 [|b4 [|b5 [|b6 [|? ?]]]]]]]] h; try discriminate h; exact (hash_6E b0 b1 b2 b3 b4 b5 b6).
case: l => [|a8 l].
  move=> _; exists RATE_7_PARAMS; split; [exact in7|reflexivity|].
  case=> [|b0 [|b1 [|b2 [|b3 [|b4 [|b5 [|b6 [|b7 [|? ?]]]]]]]]] h; try discriminate h; exact (hash_7E b0 b1 b2 b3 b4 b5 b6 b7).
by move=> h; discriminate h.
Qed.

(** The hash is the value at [x] of a polynomial of degree exactly 17 ^ 39,
    whichever word is the unknown. *)
Lemma hash_degree (l : seq Fq) j : (1 < size l <= 8)%N -> (j < size l)%N ->
  exists2 P : {poly Fq}, size P = (17 ^ 39).+1 & forall x, hash_on (set_nth 0 l j x) = Ret P.[x].
Proof.
move=> hl hj; have [p [hp ht E]] := hash_onE hl; move: hl hj; rewrite -ht => _ hj.
have [P sP hP] := textbook_degree hp (inp := l) (esym ht) hj.
exists P => // x; rewrite E ?hP //.
by rewrite size_set_nth -ht; apply/maxn_idPr.
Qed.

(** A polynomial of smaller degree agrees with the hash on at most 17 ^ 39 points. *)
Lemma hash_interpolation (l : seq Fq) j (Q : {poly Fq}) (xs : seq Fq) : (1 < size l <= 8)%N -> (j < size l)%N ->
  (size Q <= 17 ^ 39)%N -> uniq xs -> (forall x, x \in xs -> hash_on (set_nth 0 l j x) = Ret Q.[x]) ->
  (size xs <= 17 ^ 39)%N.
Proof.
move=> hl hj sQ u H; have [P sP hP] := hash_degree hl hj.
apply: (@degree_agree Fq_fieldType (fun x => P.[x]) _ Q xs) => //; first by exists P.
by apply/allP => x /H; rewrite hP => /(congr1 (fun o : outcome Fq => if o is Ret z then z else 0)) /= ->.
Qed.

(** No value is taken more than 17 ^ 39 times. *)
Lemma hash_values (l : seq Fq) j (y : Fq) (xs : seq Fq) : (1 < size l <= 8)%N -> (j < size l)%N ->
  uniq xs -> (forall x, x \in xs -> hash_on (set_nth 0 l j x) = Ret y) -> (size xs <= 17 ^ 39)%N.
Proof.
move=> hl hj u H; have [P sP hP] := hash_degree hl hj.
apply: (@degree_values Fq_fieldType (fun x => P.[x]) _ y xs _ _ u); [by exists P|by rewrite expn_gt0|].
by apply/allP => x /H; rewrite hP => /(congr1 (fun o : outcome Fq => if o is Ret z then z else 0)) /= ->.
Qed.

Lemma bound_17 : (2 ^ 159 < 17 ^ 39 < q)%Z.
Proof. by []. Qed.

Lemma many_points n : (Z.of_nat n <= q)%Z -> exists2 xs : seq Fq, uniq xs & size xs = n.
Proof.
move=> h; exists [seq Fq_of_Z (Z.of_nat k) | k <- iota 0 n]; last by rewrite size_map size_iota.
rewrite map_inj_in_uniq ?iota_uniq // => a b; rewrite !mem_iota /= add0n => /ltP ha /ltP hb /(congr1 fval) /=.
rewrite !Z.mod_small; [exact: Nat2Z.inj|by move: h ha hb; clear; move: q => qq; lia..].
Qed.

Lemma expn_Z a n : Z.of_nat (a ^ n)%N = (Z.of_nat a ^ Z.of_nat n)%Z.
Proof.
elim: n => [|n IH]; first by [].
by rewrite expnS -[(_ * _)%N]/(Nat.mul _ _) Nat2Z.inj_mul IH Nat2Z.inj_succ Z.pow_succ_r //; lia.
Qed.

Lemma small_degree d (P Q : {poly Fq}) : (Z.of_nat d < q)%Z -> size P = d.+1 -> (size Q <= d)%N ->
  exists x, P.[x] != Q.[x].
Proof.
move=> dq sP sQ; have [xs u sxs] : exists2 xs : seq Fq, uniq xs & size xs = d.+1.
  by apply: many_points; rewrite Nat2Z.inj_succ; apply/Z.le_succ_l.
case E : (all (fun x => P.[x] == Q.[x]) xs); last by move/allPn: (negbT E) => [x _ n]; exists x.
have := @degree_agree Fq_fieldType (fun x => P.[x]) _ Q xs (ex_intro2 _ _ P sP (fun x => erefl)) sQ u E.
by rewrite sxs ltnn.
Qed.

Lemma degree_q : (Z.of_nat (17 ^ 39)%N < q)%Z.
Proof. rewrite expn_Z; exact: (proj2 bound_17). Qed.

(** No polynomial of smaller degree computes the hash. *)
Lemma hash_no_shorter (l : seq Fq) j (Q : {poly Fq}) : (1 < size l <= 8)%N -> (j < size l)%N ->
  (size Q <= 17 ^ 39)%N -> exists x, hash_on (set_nth 0 l j x) <> Ret Q.[x].
Proof.
move=> hl hj sQ; have [P sP hP] := hash_degree hl hj.
have [x n] := small_degree degree_q sP sQ; exists x; rewrite hP.
by move/(congr1 (fun o : outcome Fq => if o is Ret z then z else 0)) => /= A; rewrite A eqxx in n.
Qed.
