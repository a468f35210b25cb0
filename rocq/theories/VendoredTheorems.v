(** The statements of C70. *)
From Coq Require Import ZArith NArith Lia.
From mathcomp Require Import all_ssreflect all_algebra.
From Verif Require Import Base Matrix MatrixSpec MatrixProofs Params Permutation Spec PermutationProofs PoseidonProofs PoseidonProps.
From Verif Require Import Cauchy PrimeField AlphaProofs Mds V1Proofs GrainTables GrainExec GrainProofs GrainMatrix GrainTheorems VendoredPerm VendoredPermProofs VendoredExec VendoredTables GrainShipped.
From Verif Require Sage.
From Verif Require Import SageProofs.
Set Implicit Arguments.
Unset Strict Implicit.
Unset Printing Implicit Defensive.
Import GRing.Theory.
Local Open Scope ring_scope.
Local Open Scope rust_scope.

Lemma x5_textbook (F : fieldType) (t1 R_F R_P : nat) (M : 'M[F]_(1 + t1)) (rc x : seq F) :
  ((R_F %/ 2 + R_P + R_F %/ 2) * (1 + t1) <= size rc)%N -> size x = (1 + t1)%N ->
  x5_perm R_F R_P M rc x =
  Ret (ofV (poseidon (fun x => x ^+ 5) M (fun r => \col_i nth 0 rc (r * (1 + t1) + i)) (R_F %/ 2) R_P (toV (1 + t1) x))).
Proof. by move=> rcs sx; rewrite -{1}[x](ofV_toV sx) x5_permE. Qed.

Lemma x5_perm_cases (F : fieldType) (t1 R_F R_P : nat) (M : 'M[F]_(1 + t1)) (rc x : seq F) : size x = (1 + t1)%N ->
  x5_perm R_F R_P M rc x =
  if ((R_F %/ 2 + R_P + R_F %/ 2) * (1 + t1) <= size rc)%N then
    Ret (ofV (poseidon (fun x => x ^+ 5) M (fun r => \col_i nth 0 rc (r * (1 + t1) + i)) (R_F %/ 2) R_P (toV (1 + t1) x)))
  else Panic.
Proof. by move=> sx; case: leqP => h; [exact: x5_textbook|exact: x5_few]. Qed.

(** ** The matrices *)
Section Matrices.
Variables (V : vendored) (PF : prime_field).
Hypothesis VI : List.In V vendored_scripts.
Hypothesis pE : pf_p PF = v_prime V.

Lemma v_mds : mds_mx (v_matrix_field PF V (v_t V)).
Proof.
have [s1 [s2 [H1 H2]]] := vendored_matrices VI pE (leqnn 79) (leqnn 64).
have [n0 [sz nz] _] := vendored_checks VI.
have [sz1 nz1] := constants_end_state (leqnn 79) n0 sz nz H1.
have [bs0 [s0 [bs [_ _ sz' [u nz' E]]]]] := create_mds_ok (leqnn 79) n0 (conj sz1 nz1) H2.
by rewrite /v_matrix_field E; apply: cauchy_list_mds => //; rewrite size_map lblocksE size_map size_iota.
Qed.

Variable t1 : nat.
Hypothesis tE : v_t V = (1 + t1)%N.
Let M : 'M[PF]_(1 + t1) := v_matrix_field PF V (1 + t1).

Lemma v_mds1 : mds_mx M.
Proof. by rewrite /M -tE; exact: v_mds. Qed.
Lemma v_unit : M \in unitmx.
Proof. exact: mds_unit v_mds1. Qed.
Lemma v_unit_hat : drsubmx M \in unitmx.
Proof.
have -> : drsubmx M = mxsub (@rshift 1 t1) (@rshift 1 t1) M by apply/matrixP => i j; rewrite !mxE.
by apply: v_mds1; exact: rshift_inj.
Qed.
End Matrices.

(** ** The numbers of rounds, the sizes of the tables *)
Definition v_shape (V : vendored) : bool :=
  [&& ~~ odd (v_R_F V), (0 < v_R_P V)%N, size (v_round_constants V) == ((v_R_F V + v_R_P V) * v_t V)%N,
      size (v_MDS_matrix V) == v_t V & all (fun r => size r == v_t V) (v_MDS_matrix V)].
Lemma v_shapes V : List.In V vendored_scripts -> v_shape V.
Proof. by case=> [<-|[<-|[<-|[<-|[<-|//]]]]]; vm_cast_no_check (erefl true). Qed.

Lemma even_half n : ~~ odd n -> (n %/ 2 + n %/ 2)%N = n.
Proof. by move=> e; rewrite addnn -[RHS]odd_double_half (negPf e) add0n divn2. Qed.

Section Script.
Variables (V : vendored) (PF : prime_field) (t1 : nat).
Hypothesis VI : List.In V vendored_scripts.
Hypothesis pE : pf_p PF = v_prime V.
Hypothesis tE : v_t V = (1 + t1)%N.
Local Notation M := (v_matrix_field PF V (1 + t1)).
Local Notation rc := (v_constants_field PF V).

Lemma v_rounds : (v_R_F V %/ 2 + v_R_P V + v_R_F V %/ 2)%N = (v_R_F V + v_R_P V)%N.
Proof. by have /and5P [e _ _ _ _] := v_shapes VI; rewrite addnAC even_half. Qed.
Lemma v_size : size rc = ((v_R_F V + v_R_P V) * (1 + t1))%N.
Proof. by have /and5P [_ _ /eqP e _ _] := v_shapes VI; rewrite size_map e tE. Qed.

Lemma script_textbook (x : seq PF) : size x = (1 + t1)%N ->
  x5_perm (v_R_F V) (v_R_P V) M rc x =
  Ret (ofV (poseidon (fun x => x ^+ 5) M (fun r => \col_i nth 0 rc (r * (1 + t1) + i)) (v_R_F V %/ 2) (v_R_P V) (toV (1 + t1) x))).
Proof. by move=> sx; rewrite x5_textbook // v_size v_rounds. Qed.

(** Every output comes from exactly one input. *)
Lemma script_bij : coprime 5 (Z.to_nat (v_prime V - 1)) -> forall y : seq PF, size y = (1 + t1)%N ->
  exists! x : seq PF, size x = (1 + t1)%N /\ x5_perm (v_R_F V) (v_R_P V) M rc x = Ret y.
Proof.
rewrite -pE => cp y sy.
have [g gK Kg] := bij_poseidon (fun r => \col_i nth 0 rc (r * (1 + t1) + i)) (pf_pow_bij (isT : (0 < 5)%N) cp) (v_unit VI pE tE)
  (v_R_F V %/ 2) (v_R_P V).
exists (ofV (g (toV _ y))); split; first by rewrite size_ofV script_textbook ?size_ofV // toV_ofV Kg ofV_toV.
move=> x [sx]; rewrite script_textbook // => -[<-]; by rewrite toV_ofV gK ofV_toV.
Qed.

(** The library's code, run on the script's matrix and constants. *)
Lemma library_unoptimized (p : params PF) : wf_params p -> p_t1 p = t1 -> p_alpha p = Exponent 5 ->
  r_F (p_rounds p) = v_R_F V -> r_P (p_rounds p) = v_R_P V -> p_mds p = ofM M -> elements (p_arc p) = rc ->
  forall x : seq PF, size x = (1 + t1)%N -> unoptimized_permute p x = x5_perm (v_R_F V) (v_R_P V) M rc x.
Proof.
move=> wf e1 ea eF eP eM ec x sx; rewrite script_textbook //.
case: p wf e1 ea eF eP eM ec => pt pt1 b a r m c oc o wf /= e1 ea eF eP eM ec; subst pt1.
have et : pt = (1 + t1)%N by move: wf; rewrite /wf_params /= => /andP [/eqP].
by rewrite (@generic_textbook _ _ wf 5 x) //= ?et // eF eP ec eM toM_ofM.
Qed.

Lemma library_optimized om d bits : (0 < t1 < 8)%N ->
  let r := RoundNumbers (v_R_P V) (v_R_F V) in
  let arc := Rmat (v_R_P V + v_R_F V) (1 + t1) rc in
  mds_generate_optimized (ofM M) (1 + t1) r = Ret om -> arc_generate_optimized (@row_vector_vec PF) arc (ofM M) r = Ret d ->
  let P := Params (1 + t1) t1 bits (Exponent 5) r (ofM M) arc d om in
  forall x : seq PF, size x = (1 + t1)%N ->
    unoptimized_permute P x = x5_perm (v_R_F V) (v_R_P V) M rc x /\ permute P x = x5_perm (v_R_F V) (v_R_P V) M rc x.
Proof.
move=> ht r arc Eo Ed P x sx.
have /and5P [ev rp _ _ _] := v_shapes VI.
have wa : wf_shape (rounds_total r) (1 + t1) arc.
  by rewrite /wf_shape /= !eqxx /= v_size addnC.
have [wf H] := optimized_params_permute wa (Exponent 5) bits ht rp ev Eo Ed sx.
have U : unoptimized_permute P x = x5_perm (v_R_F V) (v_R_P V) M rc x by apply: library_unoptimized.
by rewrite U -U; split=> //; rewrite -H.
Qed.
End Script.

(** ** The test vectors *)
Definition ne01 (p z : Z) : bool := ~~ (z mod p =? 0)%Z && ~~ ((z - 1) mod p =? 0)%Z.
Definition tv_check (T : test_vector) : bool :=
  let V := tv_script T in let p := v_prime V in let M := v_MDS_matrix V in let t := v_t V in let w := tv_w_hat T in
  [&& size (tv_input T) == t,
      all2 Z.eqb (bposeidon p M t (v_R_F V %/ 2) (v_R_P V) (v_round_constants V) (tv_input T)) (tv_output T),
      all (fun z => (0 <=? z)%Z && (z <? p)%Z) (tv_output T),
      all (ne01 p) (nth [::] M 0),
      size w == t.-1, all (ne01 p) w &
      all (fun i => (cdot 0%Z Z.add Z.mul (behead (nth [::] M i.+1)) w - nth 0%Z (nth [::] M i.+1) 0) mod p =? 0)%Z (iota 0 t.-1)].

Lemma tv_checks T : List.In T test_vectors ->
  [/\ List.In (tv_script T) vendored_scripts, (2 < v_t (tv_script T) < 8)%N, tv_check T & (Z.gcd 5 (v_prime (tv_script T) - 1) =? 1)%Z].
Proof.
case=> [<-|[<-|[<-|[<-|//]]]]; (split; [|by vm_cast_no_check (erefl true)|by vm_cast_no_check (erefl true)|by vm_cast_no_check (erefl true)]).
- by do 2 right; left.
- by do 3 right; left.
- by left.
- by right; left.
Qed.

Section Vector.
Variables (T : test_vector) (PF : prime_field) (t1 : nat).
Hypothesis TI : List.In T test_vectors.
Local Notation V := (tv_script T).
Hypothesis pE : pf_p PF = v_prime V.
Hypothesis tE : v_t V = (1 + t1)%N.
Local Notation M := (v_matrix_field PF V (1 + t1)).
Local Notation rc := (v_constants_field PF V).

Lemma nth_pf l i : nth 0 [seq pf_of PF z | z <- l] i = pf_of PF (nth 0%Z l i).
Proof.
case: (ltnP i (size l)) => il; first by rewrite (nth_map 0%Z).
by rewrite !nth_default ?size_map ?pf_of_0.
Qed.

Lemma script_vector : x5_perm (v_R_F V) (v_R_P V) M rc [seq pf_of PF z | z <- tv_input T] =
    Ret [seq pf_of PF z | z <- tv_output T] /\
  [seq pf_to z | z <- [seq pf_of PF z | z <- tv_output T]] = tv_output T.
Proof.
have [VI _ /andP [/eqP si /andP [/all2_eqb eo /andP [bo _]]] _] := tv_checks TI.
have /and5P [_ _ _ /eqP sM aM] := v_shapes VI.
rewrite tE in si sM aM eo; rewrite -pE in eo bo; split; last first.
  rewrite -map_comp; elim: (tv_output T) bo => //= z l IH /andP [/andP [/Z.leb_le z0 /Z.ltb_lt zp] /IH ->].
  by rewrite pf_to_of Z.mod_small.
rewrite (script_textbook VI tE) ?size_map //.
have [so] := bposeidonE PF (v_R_F V %/ 2) (v_R_P V) (v_round_constants V) sM aM si.
rewrite eo in so *.
have -> : \col_i pf_of PF (nth 0%Z (tv_input T) i) = toV (1 + t1) [seq pf_of PF z | z <- tv_input T].
  by apply/colP => i; rewrite !mxE nth_pf.
rewrite (@SageShipped.eq_poseidon _ _ _ _ _ (fun r => \col_i nth 0 rc (r * (1 + t1) + i))); last first.
  by move=> r; apply/colP => i; rewrite !mxE nth_pf.
rewrite -/(v_matrix_field PF V (1 + t1)) => <-; congr Ret.
rewrite -[RHS](@ofV_toV _ (1 + t1)) ?size_map //; congr ofV.
by apply/colP => i; rewrite !mxE nth_pf.
Qed.

Lemma ne01E z : ne01 (v_prime V) z -> pf_of PF z != 0 /\ pf_of PF z != 1.
Proof.
rewrite /ne01 -pE => /andP [/Z.eqb_spec n0 /Z.eqb_spec n1]; split; apply/eqP.
  by move=> /pf_of_eq0.
by move=> /eqP; rewrite -subr_eq0 -pf_of_1 -pf_of_sub => /eqP /pf_of_eq0.
Qed.

Lemma optimized_exist : let r := RoundNumbers (v_R_P V) (v_R_F V) in
  exists om d, mds_generate_optimized (ofM M) (1 + t1) r = Ret om /\
    arc_generate_optimized (@row_vector_vec PF) (Rmat (v_R_P V + v_R_F V) (1 + t1) rc) (ofM M) r = Ret d.
Proof.
move=> r; have [VI tb /and5P [_ _ _ M0 /and3P [/eqP sw aw /allP hw]] _] := tv_checks TI.
have /and5P [ev rp sc /eqP sM aM] := v_shapes VI; rewrite tE /= in tb sw hw sM aM.
have ht : (0 < t1 < 8)%N by case/andP: tb; rewrite add1n !ltnS => /ltnW -> /leqW ->.
have Mr k : (k < 1 + t1)%N -> size (nth [::] (v_MDS_matrix V) k) = (1 + t1)%N.
  by move=> kt; apply/eqP; apply: (all_nthP [::] aM); rewrite sM.
pose w : 'cV[PF]_t1 := \col_i pf_of PF (nth 0%Z (tv_w_hat T) i).
have hE : drsubmx M *m w = dlsubmx M.
  apply/matrixP => i j; rewrite ord1 !mxE.
  have /hw : (i : nat) \in iota 0 t1 by rewrite mem_iota ltn_ord.
  rewrite -pE => /Z.eqb_eq /pf_of_eq0; rewrite pf_of_sub => /eqP; rewrite subr_eq0 => /eqP <-.
  rewrite (@cdotE _ 0%Z Z.add Z.mul _ (pf_of PF) (pf_of_0 PF) (@pf_of_add PF) (@pf_of_mul PF) t1) //; last first.
    by rewrite size_behead Mr // ltnS.
  by apply: eq_bigr => k _; rewrite !mxE nth_behead.
have wE : invmx (drsubmx M) *m dlsubmx M = w by rewrite -hE mulKmx // v_unit_hat.
have [om Eo] : exists om, mds_generate_optimized (ofM M) (1 + t1) r = Ret om.
  apply/(@optimized_ok _ _ M r ht rp); rewrite (v_unit VI pE tE) (v_unit_hat VI pE tE); split=> // i j; rewrite wE.
  have row0 (k : 'I_(1 + t1)) : M 0 k != 0 /\ M 0 k != 1.
    by rewrite !mxE; apply: ne01E; apply: (all_nthP _ M0); rewrite Mr.
  rewrite -(splitK i) -(splitK j); case: (split i) => {}i; case: (split j) => {}j; rewrite /unsplit ?ord1.
  - by move=> _; rewrite block_mxEul !mxE; have := row0 0; rewrite !mxE.
  - by move=> _; rewrite block_mxEur !mxE; have := row0 (rshift 1 j); rewrite !mxE.
  - by move=> _; rewrite block_mxEdl !mxE; apply: ne01E; apply: (all_nthP _ aw); rewrite sw.
  - by rewrite -!val_eqE.
have wa : wf_shape (rounds_total r) (1 + t1) (Rmat (v_R_P V + v_R_F V) (1 + t1) rc).
  by rewrite /wf_shape /= !eqxx /= (v_size PF VI tE) addnC.
have [d Ed] : exists d, arc_generate_optimized (@row_vector_vec PF) (Rmat (v_R_P V + v_R_F V) (1 + t1) rc) (ofM M) r = Ret d.
  apply/(optimized_constants_ok M wa); [by case/andP: ht|by rewrite /rounds_total /= addn_gt0 rp|exact (v_unit VI pE tE)].
by exists om, d.
Qed.
End Vector.

Lemma vector_bij (T : test_vector) (PF : prime_field) (t1 : nat) : List.In T test_vectors ->
  let V := tv_script T in pf_p PF = v_prime V -> v_t V = (1 + t1)%N -> forall y : seq PF, size y = (1 + t1)%N ->
  exists! x : seq PF, size x = (1 + t1)%N /\
    x5_perm (v_R_F V) (v_R_P V) (v_matrix_field PF V (1 + t1)) (v_constants_field PF V) x = Ret y.
Proof.
move=> TI V pE tE; have [VI _ _ cp] := tv_checks TI; apply: script_bij => //.
have p1 := pf_p_gt1 PF; rewrite pE in p1.
by rewrite -[5%N]/(Z.to_nat 5) coprime_gcd; [exact cp|exact (Zle_0_pos _)|apply: Zlt_succ_le; rewrite -Z.add_1_r Z.sub_add; apply: Z.lt_trans p1].
Qed.

Lemma vector_library (T : test_vector) (PF : prime_field) (t1 bits : nat) : List.In T test_vectors ->
  let V := tv_script T in let M := v_matrix_field PF V (1 + t1) in
  let r := RoundNumbers (v_R_P V) (v_R_F V) in
  let arc := Rmat (v_R_P V + v_R_F V) (1 + t1) (v_constants_field PF V) in
  pf_p PF = v_prime V -> v_t V = (1 + t1)%N ->
  exists om d, [/\ mds_generate_optimized (ofM M) (1 + t1) r = Ret om,
    arc_generate_optimized (@row_vector_vec PF) arc (ofM M) r = Ret d &
    let P := Params (1 + t1) t1 bits (Exponent 5) r (ofM M) arc d om in
    (forall x : seq PF, size x = (1 + t1)%N ->
      unoptimized_permute P x = x5_perm (v_R_F V) (v_R_P V) M (v_constants_field PF V) x /\
      permute P x = x5_perm (v_R_F V) (v_R_P V) M (v_constants_field PF V) x) /\
    permute P [seq pf_of PF z | z <- tv_input T] = Ret [seq pf_of PF z | z <- tv_output T]].
Proof.
move=> TI V M r arc pE tE; have [VI tb _ _] := tv_checks TI.
have ht : (0 < t1 < 8)%N by move: tb; rewrite -/V tE add1n !ltnS => /andP [/ltnW -> /leqW ->].
have [om [d [Eo Ed]]] := optimized_exist TI pE tE; exists om, d; split=> // P.
have H := library_optimized VI tE bits ht Eo Ed; split=> //.
have [/andP [/eqP si _]] : tv_check T /\ true by have [] := tv_checks TI.
have [_ ->] := H [seq pf_of PF z | z <- tv_input T] (etrans (size_map _ _) (etrans si tE)).
by have [] := script_vector TI pE tE.
Qed.

(** ** The optimized script *)
Section X3.
Variable PF : prime_field.
Hypothesis pE : pf_p PF = v_prime x3_64_24_optimized.
Local Notation M := (v_matrix_field PF x3_64_24_optimized (1 + 23)).
Local Notation rc := (v_constants_field PF x3_64_24_optimized).
Let VI : List.In x3_64_24_optimized vendored_scripts.
Proof. by do 4 right; left. Qed.

Lemma x3_assert (x : 'rV[PF]_(1 + 23)) : Sage.perm 3 8 42 M rc x = Ret (Sage.perm_original 3 8 42 M rc x).
Proof. by rewrite permE // (v_unit VI pE (erefl _)) (v_unit_hat VI pE (erefl _)). Qed.

Lemma x3_bij : bijective (Sage.perm_original 3 8 42 M rc).
Proof.
have cp : coprime 3 (Z.to_nat (pf_p PF - 1)).
  rewrite pE -[3%N]/(Z.to_nat 3) coprime_gcd //; by vm_cast_no_check (erefl true).
have [g gK Kg] := bij_poseidon (fun r => (\row_i nth 0 rc (r * (1 + 23) + i))^T) (pf_pow_bij (isT : (0 < 3)%N) cp)
  (v_unit VI pE (erefl _)) (8 %/ 2) 42.
exists (fun y => (g y^T)^T) => x; rewrite perm_originalE trmxK ?gK ?trmxK // Kg trmxK //.
Qed.
End X3.
