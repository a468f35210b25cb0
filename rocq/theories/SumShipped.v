(** Sums of the hashes over lines of the input space. *)
From Coq Require Import ZArith NArith Lia.
From mathcomp Require Import all_ssreflect all_algebra.
From Verif Require Import Base Fq Matrix MatrixSpec MatrixProofs Params Permutation PermutationProofs Spec Cauchy SBox RateChecks Shipped Rate1 Rate2 Rate3 Rate4 Rate5 Rate6 Rate7 Hash PoseidonProps.
From Verif Require Import ActiveSpec ActiveProofs ActiveShipped DegreeSpec DegreeProofs DegreeShipped SumSpec SumProofs.
Set Implicit Arguments.
Unset Strict Implicit.
Unset Printing Implicit Defensive.
Import GRing.Theory.
Local Open Scope ring_scope.
Delimit Scope Z_scope with Z.

Definition value (o : outcome Fq) : Fq := if o is Ret x then x else 0.

Lemma degree_le_eq (F : fieldType) (f g : F -> F) d : f =1 g -> degree_le g d -> degree_le f d.
Proof. by move=> E [p sp h]; exists p => // x; rewrite E. Qed.

Lemma size_on_line (a b : seq Fq) x : size a = size b -> size (on_line a b x) = size a.
Proof. by move=> E; rewrite size_map size_zip E minnn. Qed.

Lemma toV_on_line n (a b : seq Fq) x : size a = n -> size b = n -> toV n (on_line a b x) = toV n a + x *: toV n b.
Proof.
move=> sa sb; apply/colP => i; rewrite !mxE (nth_map (0, 0)) ?size_zip ?sa ?sb ?minnn //.
by rewrite nth_zip /= ?sa ?sb // mulrC.
Qed.

Section Shipped.
Variable p : params Fq_fieldType.
Hypothesis hp : List.In p shipped.
Local Notation t1 := (p_t1 p).

Lemma permute_line (a b : seq Fq) i : size a = p_t p -> size b = p_t p -> (i < p_t p)%N ->
  degree_le (fun x : Fq_fieldType => if permute p (on_line a b x) is Ret s then nth 0 s i else 0) (17 ^ 39).
Proof.
have [ht _ _ _ _] := shipped_spec hp; rewrite ht => sa sb hi.
apply: degree_le_eq (@line_degree_le _ _ 17 (toM (1 + t1) (1 + t1) (p_mds p))
  (fun r => \col_(i < 1 + t1) nth 0 (elements (p_arc p)) (r * (1 + t1) + i)) 4 31 isT
  (toV _ a) (toV _ b) 39 (Ordinal hi)) => x.
rewrite -toV_on_line // -[on_line a b x in LHS](@ofV_toV _ (1 + t1)) ?size_on_line ?sa // (shipped_after hp).
by rewrite -[i in nth _ _ i]/(val (Ordinal hi)) nth_ofV.
Qed.

Lemma textbook_line (a b : seq Fq) : size a = p_t p -> size b = p_t p ->
  degree_le (fun x : Fq_fieldType => textbook_hash t1 (elements (p_arc p)) (on_line a b x)) (17 ^ 39).
Proof.
have [ht /andP [h1 _] _ _ _] := shipped_spec hp; rewrite ht => sa sb.
have hi : (1 < 1 + t1)%N by [].
apply: degree_le_eq (@line_degree_le _ _ 17 (toM (1 + t1) (1 + t1) (p_mds p))
  (fun r => \col_(i < 1 + t1) nth 0 (elements (p_arc p)) (r * (1 + t1) + i)) 4 31 isT
  (toV _ a) (toV _ b) 39 (Ordinal hi)) => x.
rewrite /textbook_hash -toV_on_line // -(shipped_mds hp).
by rewrite (nth_ofV _ (Ordinal hi)) -[39%N]/(4 + 31 + 4)%N after_poseidon.
Qed.
End Shipped.

(** Along every line of the input space, the direction zero included, the hash is the
    value of a polynomial of degree at most 17 ^ 39. *)
Lemma hash_line (a b : seq Fq) : (1 < size a <= 8)%N -> size b = size a ->
  exists2 P : {poly Fq}, (size P <= (17 ^ 39).+1)%N & forall x, hash_on (on_line a b x) = Ret P.[x].
Proof.
move=> ha hb; have [p [hp ht E]] := hash_onE ha; rewrite -ht in hb.
have [P sP hP] := textbook_line hp (esym ht) hb.
exists P => // x; rewrite E ?hP //.
by rewrite size_on_line // hb ht.
Qed.

Lemma q_pred : exists n, Z.of_nat n.+1 = q /\ n = Z.to_nat (q - 1).
Proof.
have h : (0 <= q - 1)%Z by [].
exists (Z.to_nat (q - 1)); split; last reflexivity.
rewrite Nat2Z.inj_succ (Z2Nat.id _ h) -Z.add_1_r; exact: Z.sub_add.
Qed.

Section Enum.
Variable n : nat.
Hypothesis nq : Z.of_nat n = q.

Lemma points_uniq : uniq [seq Fq_of_Z (Z.of_nat k) | k <- iota 0 n].
Proof.
rewrite map_inj_in_uniq ?iota_uniq // => a b; rewrite !mem_iota add0n => /andP [_ /ltP ha] /andP [_ /ltP hb] /(congr1 fval).
rewrite -[fval (Fq_of_Z (Z.of_nat a))]/(Z.of_nat a mod q)%Z -[fval (Fq_of_Z (Z.of_nat b))]/(Z.of_nat b mod q)%Z.
by rewrite -nq !Z.mod_small; [exact: Nat2Z.inj|lia..].
Qed.

Lemma points_enumerate : enumerates (F := Fq_fieldType) [seq Fq_of_Z (Z.of_nat k) | k <- iota 0 n].
Proof.
split; first exact: points_uniq.
move=> x; have [h0 h1] := fvalP x; apply/mapP.
exists (Z.to_nat (fval x)); last by rewrite Z2Nat.id // Fq_of_Z_val.
by rewrite mem_iota add0n leq0n /=; apply/ltP; lia.
Qed.

Lemma enumerates_size (xs : seq Fq) : enumerates (F := Fq_fieldType) xs -> size xs = n.
Proof.
move=> [u c]; have [uy cy] := points_enumerate.
rewrite -[RHS](size_iota 0) -[RHS](size_map (fun k => Fq_of_Z (Z.of_nat k))); apply: perm_size.
by apply: uniq_perm => // x; rewrite c cy.
Qed.
End Enum.

Lemma degree_q_nat m d : (Z.of_nat d < Z.of_nat m)%Z -> (d < m)%N.
Proof. by move=> h; apply/ltP; lia. Qed.

Lemma Fq_sum (xs : seq Fq) (f : Fq -> Fq) d : enumerates (F := Fq_fieldType) xs ->
  degree_le (F := Fq_fieldType) f d -> (Z.of_nat d < q - 1)%Z -> \sum_(x <- xs) f x = 0.
Proof.
move=> en fd dq; have [n [nq nE]] := q_pred.
apply: (@field_sum Fq_fieldType n xs f d en _ _ _ fd).
- exact (enumerates_size nq en).
- by move=> x x0; rewrite nE; apply: Fq_fermat.
- by rewrite -Fq_of_Z_nat nq; apply: Fq_inj.
- by apply: degree_q_nat; move: dq; rewrite -nq; lia.
Qed.

Lemma bound_q1 : (17 ^ 39 < q - 1)%Z.
Proof. by []. Qed.
Lemma degree_q1 : (Z.of_nat (17 ^ 39)%N < q - 1)%Z.
Proof. rewrite expn_Z; exact: bound_q1. Qed.

(** ** The hashes *)
Section Hash.
Variables (a b : seq Fq).
Hypotheses (ha : (1 < size a <= 8)%N) (hb : size b = size a).

Lemma hash_line_le : degree_le (F := Fq_fieldType) (fun x => value (hash_on (on_line (F := Fq_fieldType) a b x))) (17 ^ 39).
Proof. by have [P sP hP] := hash_line ha hb; exists P => // x; rewrite hP. Qed.

Lemma hash_zero_sum (xs : seq Fq) : enumerates (F := Fq_fieldType) xs ->
  \sum_(x <- xs) value (hash_on (on_line (F := Fq_fieldType) a b x)) = 0.
Proof. move=> en; exact (Fq_sum en hash_line_le degree_q1). Qed.

Lemma hash_moments (xs : seq Fq) (Q : {poly Fq}) : enumerates (F := Fq_fieldType) xs ->
  (17 ^ 39 + Z.of_nat (size Q) < q)%Z ->
  \sum_(x <- xs) value (hash_on (on_line (F := Fq_fieldType) a b x)) * Q.[x] = 0.
Proof.
move=> en sQ.
have HQ : degree_le (F := Fq_fieldType) (fun x => Q.[x]) (size Q).-1 by exists Q => //; case: (size Q).
have := Fq_sum en (degree_mul hash_line_le HQ); apply.
rewrite -[(_ + _)%N]/(Nat.add _ _) Nat2Z.inj_add expn_Z -[Z.of_nat 17]/17%Z -[Z.of_nat 39]/39%Z.
move: sQ; have := bound_q1; move: (17 ^ 39)%Z q => u v; case: (size Q) => [|m] /=; lia.
Qed.

Lemma hash_subgroup m (H : seq Fq) : roots_of_unity (F := Fq_fieldType) m H -> (17 ^ 39 < Z.of_nat m)%Z ->
  \sum_(h <- H) value (hash_on (on_line (F := Fq_fieldType) a b h)) = m%:R * value (hash_on a).
Proof.
move=> HH hm; have dm : (17 ^ 39 < m)%N by apply: degree_q_nat; rewrite expn_Z.
have -> : hash_on a = hash_on (on_line (F := Fq_fieldType) a b 0); last exact (degree_sum HH hash_line_le dm).
congr hash_on; apply: (@eq_from_nth _ 0) => [|i hi]; first by rewrite size_on_line ?hb.
by rewrite (nth_map (0, 0)) ?size_zip ?hb ?minnn // nth_zip ?hb //= mul0r addr0.
Qed.
End Hash.

Section Permute.
Variable p : params Fq_fieldType.
Hypothesis hp : List.In p shipped.
Lemma permute_zero_sum (a b xs : seq Fq) i : size a = p_t p -> size b = p_t p -> (i < p_t p)%N ->
  enumerates (F := Fq_fieldType) xs ->
  \sum_(x <- xs) (if permute p (on_line (F := Fq_fieldType) a b x) is Ret s then nth 0 s i else 0) = 0.
Proof. move=> sa sb hi en; exact (Fq_sum en (permute_line hp sa sb hi) degree_q1). Qed.
End Permute.
