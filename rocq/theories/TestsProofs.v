From Coq Require Import ZArith NArith String Reals Lia Lra.
From mathcomp Require Import all_ssreflect all_algebra.
From Verif Require Import Base Fq Matrix MatrixSpec MatrixProofs Params PrimeField Bytes V2 Build Mds Tests.
Set Implicit Arguments.
Unset Strict Implicit.
Unset Printing Implicit Defensive.
Import GRing.Theory.
Delimit Scope Z_scope with Z.
Local Open Scope ring_scope.

Lemma t_identity_matrix : test_identity_matrix = Ret tt. Proof. by vm_compute. Qed.
Lemma t_square_matmul : test_square_matmul = Ret tt. Proof. by vm_compute. Qed.
Lemma t_nonsquare_matmul_happy : test_nonsquare_matmul_happy = Ret tt. Proof. by vm_compute. Qed.
Lemma t_hadamard_product : test_hadamard_product = Ret tt. Proof. by vm_compute. Qed.
Lemma t_transpose : test_transpose = Ret tt. Proof. by vm_compute. Qed.
Lemma t_cofactors : test_cofactors = Ret tt. Proof. by vm_compute. Qed.
Lemma t_inverse : test_inverse = Ret tt. Proof. by vm_compute. Qed.
Lemma t_create_matrix_from_array : test_create_matrix_from_array = Ret tt. Proof. by vm_compute. Qed.
Lemma t_det4 : assert_det 4 (tens 4) (Fq_of_Z 0) = Ret tt. Proof. by vm_compute. Qed.
Lemma t_det3 : assert_det 3 (map Fq_of_Z [:: 1; 2; 3; 4; 5; 6; 7; 8; 9]%Z) (Fq_of_Z 0) = Ret tt. Proof. by vm_compute. Qed.
Lemma t_gcd : test_gcd = Ret tt. Proof. by vm_compute. Qed.
Lemma t_det2 : assert_det 2 [:: Fq_of_Z 1; (Fq_of_Z 1 : Fq_fieldType) + (Fq_of_Z 1 : Fq_fieldType); Fq_of_Z 3; Fq_of_Z 4] (- (Fq_of_Z 2 : Fq_fieldType)) = Ret tt.
Proof. by vm_compute. Qed.

(** The last two rows of the larger matrices are equal. *)
Lemma t_det_tens n : (5 <= n <= 8)%N -> assert_det n (tens n) (Fq_of_Z 0) = Ret tt.
Proof.
move=> n58; have [n5 n8] := andP n58; rewrite /assert_det /mnew eqxx.
have n9 : (9 <= n * n)%N by apply: leq_trans (leq_mul n5 n5).
have sz : size (tens n) = (n * n)%N by rewrite /tens size_cat size_map size_nseq subnKC.
rewrite sz eqxx /=.
have W : wf_shape n n (Rmat n n (tens n)) by rewrite /wf_shape -[elements _]/(tens n) sz !eqxx.
rewrite -(ofM_toM W) determinant_ofM /=; last by rewrite n8 andbT (leq_trans _ n5).
have l1 : (n.-1 < n)%N by rewrite prednK // (leq_trans _ n5).
have l2 : (n.-2 < n)%N by rewrite (leq_ltn_trans _ l1) // leq_pred.
rewrite (@determinant_alternate _ _ _ (Ordinal l2) (Ordinal l1)) //.
  by rewrite -val_eqE /= ltn_eqF //; case: (n) n5 => [|[|m]].
have T k : (9 <= k < n * n)%N -> nth 0 (tens n) k = Fq_of_Z 10.
  by case/andP=> k9 kn; rewrite /tens nth_cat size_map [size _]/= ltnNge k9 /= nth_nseq ltn_sub2r // (leq_ltn_trans k9).
have B i : (3 * n <= i * n + n)%N -> (i < n)%N -> forall j, (j < n)%N -> nth 0 (tens n) (i * n + j) = Fq_of_Z 10.
  move=> hi li j lj; apply: T; apply/andP; split.
    apply: leq_trans (leq_addr _ _); apply: (@leq_trans (2 * n)); first by apply: (@leq_trans (2 * 5)) => //; rewrite leq_mul2l.
    by rewrite -(leq_add2r n) -mulSnr.
  by apply: (@leq_trans (i * n + n)); rewrite ?ltn_add2l // -mulSnr leq_mul2r li orbT.
by move=> j; rewrite !mxE !B //= -mulSnr leq_mul2r ?prednK //; case: n n5 {n58 n8 n9 sz W l1 l2 T B j} => [|[|[|[|[|n]]]]].
Qed.

Lemma t_determinant : test_determinant = Ret tt.
Proof.
rewrite /test_determinant; have -> : assert_det 1 [:: Fq_of_Z 1] (Fq_of_Z 1) = Ret tt by vm_compute.
rewrite bind_ret t_det2 bind_ret.
have -> : assert_det 3 [:: Fq_of_Z 1; (Fq_of_Z 1 : Fq_fieldType) + (Fq_of_Z 1 : Fq_fieldType); Fq_of_Z 3; Fq_of_Z 4; Fq_of_Z 5; Fq_of_Z 6; Fq_of_Z 7; Fq_of_Z 8; Fq_of_Z 9] (Fq_of_Z 0) = Ret tt by vm_compute.
by rewrite bind_ret t_det4 bind_ret !t_det_tens.
Qed.

(** ** The property test of the inverse *)
Lemma p_inverse_2x2 (a b c d : Fq_fieldType) :
  prop_inverse_2x2 a b c d = if a * d - b * c == 0 then Panic else Ret tt.
Proof.
rewrite /prop_inverse_2x2 -[mnew _ _ _ _]/(Ret (Rmat 2 2 [:: a; b; c; d])) bind_ret.
have W : wf_shape 2 2 (Rmat 2 2 [:: a; b; c; d]) by [].
rewrite -(ofM_toM W) inverse_ofM //.
set A := toM 2 2 _.
have -> : \det A = a * d - b * c by rewrite (expand_det_row _ ord0) big_ord_recl big_ord1 /cofactor !det_mx11 !mxE /= expr0 expr1 mul1r mulN1r mulrN.
case: eqVneq => // dA; rewrite bind_ret [expect _]/= bind_ret.
have := @square_mat_mul_ofM Fq_fieldType 2 A (invmx A) isT; rewrite -[(2 * 2)%N]/4%N => ->.
rewrite mulmxV; last first.
  by rewrite unitmxE unitfE (expand_det_row _ ord0) big_ord_recl big_ord1 /cofactor !det_mx11 !mxE /= expr0 expr1 mul1r mulN1r mulrN.
by rewrite -[4%N]/(2 * 2)%N identity_ofM !bind_ret rmat_eqbxx.
Qed.

Definition fails (o : outcome unit) : bool := if o is Panic then true else false.
Lemma fails_2x2 (a b c d : Fq_fieldType) : fails (prop_inverse_2x2 a b c d) = (a * d == b * c).
Proof. by rewrite p_inverse_2x2 subr_eq0; case: eqP. Qed.

Section Count.
Variable N : nat.
Hypothesis Nq : (Z.of_nat N <= q)%Z.
Local Notation el i := (Fq_of_Z (Z.of_nat (nat_of_ord i)) : Fq_fieldType).
Local Notation I4 := ('I_N * 'I_N * 'I_N * 'I_N)%type.
Local Notation failing := [set x : I4 | fails (prop_inverse_2x2 (el x.1.1.1) (el x.1.1.2) (el x.1.2) (el x.2))].

Lemma el_inj : injective (fun i : 'I_N => el i).
Proof.
move=> i j /(congr1 fval) /=; have [/ltP li /ltP lj] := (ltn_ord i, ltn_ord j).
by rewrite !Z.mod_small; try lia; move=> /Nat2Z.inj /ord_inj.
Qed.
Lemma el_eq0 (i : 'I_N) : (el i == 0) = (val i == 0%N).
Proof.
apply/eqP/eqP => [/(congr1 fval) /=|->] //; have /ltP li := ltn_ord i.
rewrite Z.mod_small; last by lia.
by rewrite Zmod_0_l => h; apply: Nat2Z.inj.
Qed.

Lemma few_failures : (#|failing| <= N ^ 3 + 2 * N ^ 2)%N.
Proof.
pose S1 := [set x in failing | val x.1.1.1 != 0%N].
pose S2 := [set x in failing | (val x.1.1.1 == 0%N) && (val x.1.1.2 == 0%N)].
pose S3 := [set x in failing | (val x.1.1.1 == 0%N) && (val x.1.2 == 0%N)].
have sub : failing \subset S1 :|: (S2 :|: S3).
  apply/subsetP => x xf; rewrite !inE in xf *; rewrite xf /=.
  case: eqP => //= a0; move: xf; rewrite fails_2x2 => h.
  have /eqP a0' : el x.1.1.1 == 0 by rewrite el_eq0; apply/eqP.
  by move: h; rewrite a0' mul0r eq_sym mulf_eq0 !el_eq0.
have c3 : #|{: 'I_N * 'I_N * 'I_N}| = (N ^ 3)%N by rewrite !card_prod card_ord !expnS expn0 muln1 mulnA.
have c2 : #|{: 'I_N * 'I_N}| = (N ^ 2)%N by rewrite card_prod card_ord.
have h1 : (#|S1| <= N ^ 3)%N.
  rewrite -c3 -(@card_in_imset _ _ (fun x : I4 => x.1) S1); first exact: max_card.
  move=> [[[a b] c] d] [[[a' b'] c'] d']; rewrite !inE !fails_2x2 /= -el_eq0 => /andP [/eqP E a0] /andP [/eqP E' _] [ea eb ec].
  rewrite -ea -eb -ec in E' *; congr (_, _); apply: el_inj.
  by apply: (mulfI a0); rewrite E E'.
have h2 : (#|S2| <= N ^ 2)%N.
  rewrite -c2 -(@card_in_imset _ _ (fun x : I4 => (x.1.2, x.2)) S2); first exact: max_card.
  move=> [[[a b] c] d] [[[a' b'] c'] d']; rewrite !inE /= => /and3P [_ /eqP a0 /eqP b0] /and3P [_ /eqP a0' /eqP b0'] [-> ->].
  by rewrite (val_inj (etrans a0 (esym a0')) : a = a') (val_inj (etrans b0 (esym b0')) : b = b').
have h3 : (#|S3| <= N ^ 2)%N.
  rewrite -c2 -(@card_in_imset _ _ (fun x : I4 => (x.1.1.2, x.2)) S3); first exact: max_card.
  move=> [[[a b] c] d] [[[a' b'] c'] d']; rewrite !inE /= => /and3P [_ /eqP a0 /eqP b0] /and3P [_ /eqP a0' /eqP b0'] [-> ->].
  by rewrite (val_inj (etrans a0 (esym a0')) : a = a') (val_inj (etrans b0 (esym b0')) : c = c').
apply: leq_trans (subset_leq_card sub) _; apply: leq_trans (leq_of_leqif (leq_card_setU _ _)) _.
rewrite leq_add // mul2n -addnn; apply: leq_trans (leq_of_leqif (leq_card_setU _ _)) _.
by rewrite leq_add.
Qed.
End Count.

(** On the bytes that [proptest] draws *)
Lemma pp_inverse_2x2 (a b c d : bytes) : proptest_inverse_2x2 a b c d =
  if ((Z.of_N (le_val a) * Z.of_N (le_val d) - Z.of_N (le_val b) * Z.of_N (le_val c)) mod q =? 0)%Z then Panic else Ret tt.
Proof.
rewrite /proptest_inverse_2x2 p_inverse_2x2 /from_le_bytes_mod_order.
by rewrite -!Fq_of_Z_mul -Fq_of_Z_sub Fq_of_Z_eq0.
Qed.

Lemma few_failing_bytes (N : nat) : Z.of_nat N = (2 ^ 128)%Z ->
  (#|[set x : 'I_N * 'I_N * 'I_N * 'I_N | fails (proptest_inverse_2x2 (le_bytes 16 (N.of_nat x.1.1.1)) (le_bytes 16 (N.of_nat x.1.1.2))
        (le_bytes 16 (N.of_nat x.1.2)) (le_bytes 16 (N.of_nat x.2)))]| <= N ^ 3 + 2 * N ^ 2)%N.
Proof.
move=> hN; have Nq : (Z.of_nat N <= q)%Z by rewrite hN; vm_compute.
have -> : [set x : 'I_N * 'I_N * 'I_N * 'I_N | fails (proptest_inverse_2x2 (le_bytes 16 (N.of_nat x.1.1.1)) (le_bytes 16 (N.of_nat x.1.1.2))
        (le_bytes 16 (N.of_nat x.1.2)) (le_bytes 16 (N.of_nat x.2)))] =
  [set x : 'I_N * 'I_N * 'I_N * 'I_N | fails (prop_inverse_2x2 (Fq_of_Z (Z.of_nat x.1.1.1)) (Fq_of_Z (Z.of_nat x.1.1.2)) (Fq_of_Z (Z.of_nat x.1.2)) (Fq_of_Z (Z.of_nat x.2)))].
  have E (i : 'I_N) : from_le_bytes_mod_order (le_bytes 16 (N.of_nat i)) = Fq_of_Z (Z.of_nat i).
    rewrite /from_le_bytes_mod_order le_bytesK N.mod_small ?nat_N_Z //.
    by have /ltP li := ltn_ord i; rewrite -[(256 ^ _)%num]/(2 ^ 128)%num; lia.
  by apply/setP => x; rewrite !inE /proptest_inverse_2x2 !E.
exact: few_failures Nq.
Qed.

Lemma zeros_fail : exists a b c d : bytes,
  [/\ all is_bytes [:: a; b; c; d], all (fun x : bytes => size x == 16%N) [:: a; b; c; d] & proptest_inverse_2x2 a b c d = Panic].
Proof. by exists (nseq 16 0%num), (nseq 16 0%num), (nseq 16 0%num), (nseq 16 0%num); split=> //; rewrite pp_inverse_2x2. Qed.
