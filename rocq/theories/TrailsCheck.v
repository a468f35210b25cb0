(** A Boolean check that the Krylov vectors of the powers of the Cauchy matrix
    1/(i+t+j) are independent, run on machine integers modulo [q]. *)
From Coq Require Import ZArith.
From Bignums Require Import BigZ.
From mathcomp Require Import all_ssreflect all_algebra.
From Verif Require Import Base Fq Matrix MatrixSpec MatrixProofs Check CheckSound BigField Cauchy TrailsSpec TrailsProofs.
Set Implicit Arguments.
Unset Strict Implicit.
Unset Printing Implicit Defensive.
Import GRing.Theory.
Local Open Scope ring_scope.
Delimit Scope Z_scope with Z.

Section Elim.
(** [red] reduces modulo [q]; [nz] decides that a reduced element is not 0. *)
Variables (A : Type) (o : ops A) (red : A -> A) (nz : A -> bool).

(** Fraction-free elimination without row exchanges. *)
Definition reduce_row (a : A) (u r : seq A) : seq A :=
  [seq red (osub o (omul o a xy.2) (omul o (head (o0 o) r) xy.1)) | xy <- zip u (behead r)].
Fixpoint elim_ok (n : nat) (m : seq (seq A)) : bool :=
  if n is n'.+1 then
    nz (b00 o m) && elim_ok n' [seq reduce_row (b00 o m) (b01 m) r | r <- behead m]
  else true.

Fixpoint powers (M : seq (seq A)) (v : seq A) (k : nat) : seq (seq A) :=
  v :: if k is k'.+1 then powers M (map red (mulv o M v)) k' else [::].
Definition krylov_rows (vs : seq (seq A)) (t r : nat) : seq (seq A) :=
  [seq nth [::] vs (r * k) | k <- iota 0 t].
Definition check_krylov (M : seq (seq A)) (e0 : seq A) (t R : nat) : bool :=
  let vs := powers M e0 (R * t.-1) in all (fun r => elim_ok t (krylov_rows vs t r)) (iota 1 R).
End Elim.

(** Arithmetic without reduction *)
Definition zops : ops BigZ.t :=
  Ops BigZ.zero BigZ.one BigZ.add BigZ.sub BigZ.mul BigZ.eqb (fun n => BigZ.of_Z (Z.of_nat n)).
Definition bred (a : BigZ.t) : BigZ.t := BigZ.modulo a bq.
Definition bnz (a : BigZ.t) : bool := ~~ BigZ.eqb (bred a) BigZ.zero.

(** ** Soundness over a field *)
Section Sound.
Variable F : fieldType.
Local Notation o := (field_ops F).
Local Notation nzF := (fun a : F => a != 0).

Lemma schur_unit n (A : 'M[F]_(1 + n)) : A 0 0 != 0 ->
  (A 0 0 *: drsubmx A - dlsubmx A *m ursubmx A) \in unitmx -> A \in unitmx.
Proof.
move=> a0 uS; rewrite -row_free_unit -kermx_eq0; apply/eqP/row_matrixP => i; rewrite row0.
have : row i (kermx A) *m A = 0 by rewrite -row_mul mulmx_ker row0.
move: (row i _) => x; rewrite -[A]submxK -[x]hsubmxK mul_row_block -[RHS]row_mx0.
move: (lsubmx x) (rsubmx x) => x0 x1 /eq_row_mx []; rewrite A00_ul mul_mx_scalar => E0 E1.
have x10 : x1 = 0.
  have : x1 *m (A 0 0 *: drsubmx A - dlsubmx A *m ursubmx A) = 0.
    rewrite mulmxBr -scalemxAr mulmxA; have /eqP := E0; rewrite addrC addr_eq0 => /eqP ->.
    by rewrite mulNmx opprK -scalemxAl -scalerDr addrC E1 scaler0.
  by move=> E; rewrite -[x1](mulmxK uS) E mul0mx.
move: E0; rewrite x10 mul0mx addr0 => /eqP; rewrite scaler_eq0 (negPf a0) => /eqP ->.
by rewrite row_mx0.
Qed.

Lemma elim_sound n (A : 'M[F]_n) : elim_ok o id nzF n (mrows A) -> A \in unitmx.
Proof.
elim: n A => [|n IH] A; first by rewrite unitmxE det_mx00 unitr1.
rewrite /= -[mrows A]/(mrows (A : 'M_(1 + n))) b00_mrows b01_mrows => /andP [a0].
have -> : [seq reduce_row o id (A 0 0) (ofR (ursubmx (A : 'M_(1 + n)))) r | r <- behead (mrows (A : 'M_(1 + n)))] =
  mrows (A 0 0 *: drsubmx (A : 'M_(1 + n)) - dlsubmx (A : 'M_(1 + n)) *m ursubmx (A : 'M_(1 + n))).
  rewrite mrows_blocks /= -map_comp /mrows; apply: eq_map => i /=.
  rewrite /reduce_row /= /ofR zip_map -map_comp; apply: eq_map => j /=.
  by rewrite !mxE big_ord1 !mxE.
by move/IH/(schur_unit a0).
Qed.

Lemma powersE n (M : 'M[F]_n.+1) (v : 'cV[F]_n.+1) k : powers o id (mrows M) (ofV v) k =
  [seq ofV (M ^+ i *m v) | i <- iota 0 k.+1].
Proof.
elim: k v => [|k IH] v; first by rewrite /= expr0 mul1mx.
rewrite [LHS]/= map_id mulv_ofV IH [RHS]/= expr0 mul1mx; congr cons.
rewrite -[RHS]/[seq ofV (M ^+ i *m v) | i <- iota (1 + 0) k.+1] iotaDl -map_comp; apply: eq_map => i.
by rewrite /= add1n exprSr -mulmxA.
Qed.

Lemma krylov_rowsE n (M : 'M[F]_n.+1) k r : (r * n <= k)%N ->
  krylov_rows (powers o id (mrows M) (ofV (delta_mx 0 0 : 'cV[F]_n.+1)) k) n.+1 r = mrows (krylov M r).
Proof.
move=> rk; rewrite powersE /krylov_rows /mrows -map_enum_iota; apply: eq_map => i.
have ik : (r * i < k.+1)%N by rewrite ltnS; apply: leq_trans rk; rewrite leq_mul2l -ltnS ltn_ord orbT.
rewrite (nth_map 0%N) ?size_iota // nth_iota // add0n /ofV.
by apply: eq_map => j; rewrite [RHS]mxE.
Qed.

Lemma check_krylov_sound n (M : 'M[F]_n.+1) R :
  check_krylov o id nzF (mrows M) (ofV (delta_mx 0 0 : 'cV[F]_n.+1)) n.+1 R ->
  forall r, (0 < r <= R)%N -> krylov M r \in unitmx.
Proof.
move=> /allP H r /andP [r0 rR]; apply: elim_sound.
have := H r; rewrite mem_iota r0 add1n ltnS rR => /(_ isT).
by rewrite krylov_rowsE // leq_mul2r rR orbT.
Qed.

Lemma krylov_scale n (M : 'M[F]_n.+1) l r : krylov (l *: M) r \in unitmx -> krylov M r \in unitmx.
Proof.
have -> : krylov (l *: M) r = diag_mx (\row_k l ^+ (r * k)) *m krylov M r.
  apply/matrixP => k i; rewrite mul_diag_mx !mxE big_distrr /=; apply: eq_bigr => j _.
  have -> : (l *: M) ^+ (r * k) = l ^+ (r * k) *: M ^+ (r * k); last by rewrite !mxE mulrA.
  by rewrite exprZn.
by rewrite unitmx_mul => /andP [].
Qed.

Lemma check_krylov_trails n (M : 'M[F]_n.+1) l R : l != 0 -> M^T = M ->
  check_krylov o id nzF (mrows (l *: M)) (ofV (delta_mx 0 0 : 'cV[F]_n.+1)) n.+1 R -> trail_free M R.
Proof.
move=> l0 sym /check_krylov_sound H; apply: krylov_trail_free => r /H /krylov_scale u.
by rewrite sym.
Qed.
End Sound.

(** ** Transfer *)
Lemma z_phi_add a b : phi (oadd zops a b) = oadd fops (phi a) (phi b).
Proof. by rewrite /phi /= BigZ.spec_add Fq_of_Z_add. Qed.
Lemma z_phi_sub a b : phi (osub zops a b) = osub fops (phi a) (phi b).
Proof. by rewrite /phi /= BigZ.spec_sub Fq_of_Z_sub. Qed.
Lemma z_phi_mul a b : phi (omul zops a b) = omul fops (phi a) (phi b).
Proof. by rewrite /phi /= BigZ.spec_mul Fq_of_Z_mul. Qed.
Lemma phi_bred a : phi (bred a) = phi a.
Proof. by rewrite /phi /bred BigZ.spec_modulo bqE Fq_of_Z_mod. Qed.
Lemma phi_bnz a : bnz a -> phi a != 0.
Proof. by rewrite /bnz /bred /phi Fq_of_Z_eq0 BigZ.spec_eqb BigZ.spec_modulo bqE. Qed.

Local Notation mphi := (map (map phi)).
Lemma elim_phi n m : elim_ok zops bred bnz n m -> elim_ok fops id (fun a => a != 0) n (mphi m).
Proof.
elim: n m => [|n IH] m //=; rewrite -(b00_phi (o := zops)) // => /andP [/phi_bnz -> /IH] /=.
have <- : mphi [seq reduce_row zops bred (b00 zops m) (b01 m) r | r <- behead m] =
    [seq reduce_row fops id (phi (b00 zops m)) (b01 (mphi m)) r | r <- behead (mphi m)]; last by [].
rewrite behead_map -2!map_comp; apply: eq_map => r /=.
rewrite /reduce_row -b01_phi behead_map -(head_phi (o := zops)) //.
elim: (b01 m) (behead r) => [|x u IHu] [|y s] //=.
by rewrite IHu phi_bred z_phi_sub !z_phi_mul.
Qed.

Lemma powers_phi M v k : mphi (powers zops bred M v k) = powers fops id (mphi M) (map phi v) k.
Proof.
elim: k v => [|k IH] v //=; rewrite IH map_id -map_comp; congr (_ :: powers _ _ _ _ _).
rewrite -(mulv_phi (o := zops)) //; last exact: z_phi_mul; last exact: z_phi_add.
by apply: eq_map => x /=; rewrite phi_bred.
Qed.

Lemma check_krylov_phi M e t R : check_krylov zops bred bnz M e t R ->
  check_krylov fops id (fun a => a != 0) (mphi M) (map phi e) t R.
Proof.
move=> /allP H; apply/allP => r /H /elim_phi.
have -> // : mphi (krylov_rows (powers zops bred M e (R * t.-1)) t r) =
  krylov_rows (powers fops id (mphi M) (map phi e) (R * t.-1)) t r.
rewrite /krylov_rows -map_comp -powers_phi; apply: eq_map => k /=.
by elim: (powers _ _ _ _ _) (r * k)%N => [|x s IH] [|i] /=.
Qed.

(** ** The Cauchy matrix, multiplied by a common denominator *)
Definition lcm_to (t : nat) : Z := foldr (fun k l => Z.lcm (Z.of_nat k) l) 1%Z (iota t (2 * t - 1)).
Definition bcauchy (t : nat) : seq (seq BigZ.t) :=
  let L := lcm_to t in
  [seq [seq BigZ.of_Z (L / Z.of_nat (i + t + j))%Z | j <- iota 0 t] | i <- iota 0 t].
Definition be0 (t : nat) : seq BigZ.t := [seq if i == 0%N then BigZ.one else BigZ.zero | i <- iota 0 t].

Definition check_lcm (t : nat) : bool :=
  let L := lcm_to t in
  all (fun i => all (fun j => (L / Z.of_nat (i + t + j) * Z.of_nat (i + t + j) =? L)%Z) (iota 0 t)) (iota 0 t) &&
  ~~ (L mod q =? 0)%Z.
Definition check_cauchy_trails (t : nat) : bool :=
  check_lcm t && check_krylov zops bred bnz (bcauchy t) (be0 t) t (4 * t).

Lemma be0E n : map phi (be0 n.+1) = ofV (delta_mx 0 0 : 'cV[Fq]_n.+1).
Proof.
rewrite /be0 -map_comp /ofV -map_enum_iota; apply: eq_map => i /=; rewrite mxE eqxx andbT.
rewrite -[_ == 0]/(val i == 0%N); case: ifP => _; apply: Fq_inj; by vm_compute.
Qed.

Lemma bcauchyE n : check_lcm n.+1 ->
  Fq_of_Z (lcm_to n.+1) != 0 /\ mphi (bcauchy n.+1) = mrows (Fq_of_Z (lcm_to n.+1) *: cauchy_mx Fq_fieldType n.+1).
Proof.
case/andP => /allP HL; rewrite -Fq_of_Z_eq0 => L0; set L := Fq_of_Z _ in L0 *; split=> //.
rewrite /bcauchy -map_comp /mrows -map_enum_iota; apply: eq_map => i.
rewrite -map_comp -map_enum_iota; apply: eq_map => j; rewrite !mxE.
have /allP/(_ (val j)) := HL (val i) ltac:(by rewrite mem_iota ltn_ord).
rewrite mem_iota ltn_ord => /(_ isT) /Z.eqb_eq E.
have E' : Fq_of_Z (lcm_to n.+1 / Z.of_nat (i + n.+1 + j)) * (i + n.+1 + j)%:R = L by rewrite -Fq_of_Z_nat -Fq_of_Z_mul E.
have d0 : ((i + n.+1 + j)%:R : Fq) != 0 by apply: contraNneq L0 => d0; rewrite -E' d0 mulr0.
by rewrite -E' mulfK // /phi /= BigZ.spec_of_Z.
Qed.

Lemma check_cauchy_trailsP n : check_cauchy_trails n.+1 -> trail_free (cauchy_mx Fq_fieldType n.+1) (4 * n.+1).
Proof.
case/andP => /bcauchyE [L0 E] /check_krylov_phi; rewrite be0E E.
apply: check_krylov_trails => //.
by apply/matrixP => i j; rewrite !mxE; congr (_%:R^-1); rewrite addnC addnA addnAC.
Qed.
