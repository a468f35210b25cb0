(** Matrices with irreducible minimal polynomials have no subspace trails. *)
From Coq Require Import Lia.
From mathcomp Require Import all_ssreflect all_algebra.
From Verif Require Import Base Slia MatrixSpec V2 V2Spec Fq TrailsSpec TrailsProofs TrailsShipped IrreducibleSpec.
Set Implicit Arguments.
Unset Strict Implicit.
Unset Printing Implicit Defensive.
Import GRing.Theory.
Local Open Scope ring_scope.

Section Irreducible.
Variables (F : fieldType) (n : nat).
Local Notation t := n.+1.
Implicit Types (A M : 'M[F]_t) (P : 'cV[F]_t -> Prop).

(** The vectors [x, A x, ..., A^(d-1) x] *)
Definition orbit_mx A d (x : 'cV[F]_t) : 'M[F]_(t, d) := \matrix_(i, j) (A ^+ j *m x) i 0.

Lemma orbitE A d x (c : 'cV[F]_d) : orbit_mx A d x *m c = \sum_(i < d) c i 0 *: (A ^+ i *m x).
Proof.
apply/colP => i; rewrite mxE summxE; apply: eq_bigr => j _; by rewrite !mxE mulrC.
Qed.
Lemma orbit_poly A d x (p : {poly F}) : (size p <= d)%N ->
  horner_mx A p *m x = orbit_mx A d x *m \col_(i < d) p`_i.
Proof.
move=> s; rewrite orbitE.
have -> : horner_mx A p = \sum_(i < d) p`_i *: A ^+ i.
  rewrite -{1}[p]coefK (_ : \poly_(i < size p) p`_i = \poly_(i < d) p`_i); last first.
    apply/polyP => i; rewrite !coef_poly; case: ltnP => [H|H]; first by rewrite (leq_trans H s).
    by rewrite nth_default //; case: ifP.
  rewrite poly_def rmorph_sum; apply: eq_bigr => i _; rewrite linearZ /= rmorphX /= horner_mx_X //.
by rewrite mulmx_suml; apply: eq_bigr => i _; rewrite mxE -scalemxAl.
Qed.

Lemma orbit_stable A P d x (c : 'cV[F]_d) : subspace P -> stable A P -> P x -> P (orbit_mx A d x *m c).
Proof.
case=> P0 Pl st Px; rewrite orbitE; elim/big_rec: _ => // i y _ Py; apply: Pl => //.
elim: (i : nat) => [|k IH]; first by rewrite expr0 mul1mx.
by rewrite exprS -mulmxE -mulmxA; apply: st.
Qed.

Lemma col_poly d (c : 'cV[F]_d) : \col_(i < d) (rVpoly c^T)`_i = c.
Proof. by apply/colP => i; rewrite mxE coef_rVpoly_ord mxE. Qed.

(** ** The condition suffices *)
Lemma orbit_inj A x (c : 'cV[F]_t) : minpoly_irreducible A -> x != 0 -> orbit_mx A t x *m c = 0 -> c = 0.
Proof.
case=> irr sz x0 E; set p := rVpoly c^T.
have sp : (size p <= t)%N by exact: size_poly.
have E' : horner_mx A p *m x = 0 by rewrite (orbit_poly A x sp) col_poly.
case: (eqVneq p 0) => p0.
  by rewrite -(col_poly c) -/p p0; apply/colP => i; rewrite !mxE coef0.
have cop : coprimep (mxminpoly A) p.
  case: (irredp_XsubCP irr (dvdp_gcdl (mxminpoly A) p)) => [|e]; first by rewrite gcdp_eqp1.
  have /(dvdp_leq p0) H : mxminpoly A %| p by rewrite -(eqp_dvdl _ e) dvdp_gcdr.
  have := leq_trans H sp; have := irr.1; rewrite -sz; case: (size _) => // k _; rewrite ltnn //.
have [[u v] /= B] := Bezout_eq1_coprimepP _ _ cop.
case/eqP: x0; rewrite -[x]mul1mx -[1%:M](rmorph1 (horner_mx_rmorphism A)) -B /= rmorphD !rmorphM /= mx_root_minpoly mulr0 add0r.
by rewrite -mulmxE -mulmxA E' mulmx0.
Qed.

Lemma orbit_unit A x : minpoly_irreducible A -> x != 0 -> orbit_mx A t x \in unitmx.
Proof.
move=> irr x0; rewrite -unitmx_tr -row_free_unit -kermx_eq0; apply/rowV0P => v /sub_kermxP H.
apply: trmx_inj; rewrite trmx0; apply: (orbit_inj irr x0).
by apply: trmx_inj; rewrite trmx_mul trmxK H trmx0.
Qed.

Theorem irreducible_stable A : minpoly_irreducible A -> no_stable_subspace A.
Proof.
move=> irr P sub st [x Px x0] y; have U := orbit_unit irr x0.
by rewrite -(mulKVmx U y); apply: orbit_stable.
Qed.

(** ** and is necessary for there to be no stable subspaces *)
Theorem stable_irreducible A : no_stable_subspace A -> minpoly_irreducible A.
Proof.
move=> H; set m := mxminpoly A.
have m0 : m != 0 by apply: monic_neq0; exact: mxminpoly_monic.
have sm : (size m).-1 = degree_mxminpoly A by rewrite size_mxminpoly.
have irr : irreducible_poly m.
  split; first by rewrite size_mxminpoly ltnS; exact: mxminpoly_nonconstant.
  move=> p p1 pm; rewrite /eqp pm /=.
  have [s Es] := dvdpP _ _ pm.
  pose P (x : 'cV[F]_t) := horner_mx A p *m x = 0.
  have sub : subspace P.
    split; first by rewrite /P mulmx0.
    by move=> a x y Px Py; rewrite /P mulmxDr -scalemxAr Px Py scaler0 addr0.
  have st : stable A P.
    move=> x Px; rewrite /P mulmxA mulmxE -[A in _ * A]horner_mx_X -rmorphM mulrC rmorphM /= horner_mx_X.
    by rewrite -mulmxE -mulmxA Px mulmx0.
  case U : (horner_mx A p \in unitmx).
    have : horner_mx A s *m horner_mx A p = 0 by rewrite mulmxE -rmorphM -Es; exact: mx_root_minpoly.
    move/(congr1 (mulmxr (invmx (horner_mx A p)))); rewrite /= mul0mx -mulmxA mulmxV // mulmx1 => /mxminpoly_min ms.
    have s0 : s != 0 by apply: contra_neq m0 => s0; rewrite Es s0 mul0r.
    have p0 : p != 0 by apply: contra_neq m0 => p0; rewrite Es p0 mulr0.
    have := dvdp_leq s0 ms; rewrite -/m Es size_mul //.
    move=> le; exfalso; move: le p1 p0 s0; rewrite -!size_poly_eq0; move: (size p) (size s) => k l; clear.
    by case: k => [|[|k]] //; rewrite !addnS /= ltnNge leq_addr.
  have [x x0 Px] : exists2 x, x != 0 & P x.
    move: U; rewrite -unitmx_tr -row_free_unit -kermx_eq0 => /negbT /rowV0Pn [v /sub_kermxP Ev v0].
    exists v^T; first by rewrite -trmx0 (inj_eq (@trmx_inj _ _ _)).
    by rewrite /P; apply: trmx_inj; rewrite trmx_mul trmxK Ev trmx0.
  apply: mxminpoly_min; apply/matrixP => i j.
  have := H P sub st (ex_intro2 _ _ x Px x0) (delta_mx j 0); rewrite /P -colE => /colP /(_ i).
  by rewrite !mxE.
split=> //; rewrite sm.
apply/eqP; rewrite eqn_leq; apply/andP; split.
  have := dvdp_leq (monic_neq0 (char_poly_monic A)) (mxminpoly_dvd_char A).
  by rewrite size_char_poly size_mxminpoly ltnS.
pose d := degree_mxminpoly A; pose e : 'cV[F]_t := delta_mx 0 0.
pose P (y : 'cV[F]_t) := exists f : {poly F}, y = horner_mx A f *m e.
have all_y y : P y.
  apply: H => [||].
  - split; first by exists 0; rewrite rmorph0 mul0mx.
    by move=> a x z [f ->] [g ->]; exists (a *: f + g); rewrite rmorphD linearZ /= mulmxDl scalemxAl.
  - by move=> x [f ->]; exists ('X * f); rewrite rmorphM /= horner_mx_X -mulmxE mulmxA.
  exists e; first by exists 1; rewrite rmorph1 mul1mx.
  by apply/eqP => /colP /(_ 0); rewrite !mxE !eqxx; apply/eqP; exact: oner_neq0.
rewrite leqNgt; apply/negP => lt.
have : kermx (orbit_mx A d e) != 0.
  by rewrite kermx_eq0 /row_free neq_ltn (leq_ltn_trans (rank_leq_col _) lt).
case/rowV0Pn => v /sub_kermxP Ev /eqP; apply; apply/rowP => j.
have [f Ef] := all_y (delta_mx j 0).
have Ef' : delta_mx j 0 = horner_mx A (f %% m) *m e.
  rewrite Ef {1}(divp_eq f m) rmorphD rmorphM /= mx_root_minpoly mulr0 add0r //.
have sf : (size (f %% m)%R <= d)%N.
  by have := ltn_modp f m; rewrite m0 size_mxminpoly ltnS.
have : v *m delta_mx j 0 = 0 :> 'M_1 by rewrite Ef' (orbit_poly A e sf) mulmxA Ev mul0mx.
by rewrite -colE => /matrixP /(_ 0 0); rewrite !mxE.
Qed.

Theorem irreducibleP A : minpoly_irreducible A <-> no_stable_subspace A.
Proof. split; [exact: irreducible_stable | exact: stable_irreducible]. Qed.

(** ** Trails *)
Lemma irreducible_trail_free M R : (forall r, (0 < r <= R)%N -> minpoly_irreducible (M ^+ r)) -> trail_free M R.
Proof.
move=> H r hr; have irr := H r hr; have Hr := irreducible_stable irr.
have tr : no_inactive_trail M r.
  move=> x Hx; apply/eqP; apply: contraT => x0; have U := orbit_unit irr x0.
  have : row 0 (orbit_mx (M ^+ r) t x) = 0.
    by apply/rowP => k; rewrite [in RHS]mxE 2!mxE -exprM Hx.
  move/(congr1 (mulmxr (invmx (orbit_mx (M ^+ r) t x)))); rewrite /= mul0mx -row_mul mulmxV // row1.
  by move/rowP/(_ 0); rewrite !mxE !eqxx => /eqP; rewrite oner_eq0.
split=> //; first exact: inactive_trail_subspace.
move=> P sub st Pe; apply: (Hr P sub st); exists (delta_mx 0 0) => //.
by apply/eqP => /colP /(_ 0); rewrite !mxE !eqxx; apply/eqP; exact: oner_neq0.
Qed.

(** ** The characteristic polynomial *)
Lemma char_irreducible A : irreducible_poly (char_poly A) <-> minpoly_irreducible A.
Proof.
split=> [irr|[irr sz]].
  have e : mxminpoly A %= char_poly A.
    apply: (apply_irredp irr); last exact: mxminpoly_dvd_char.
    by rewrite size_mxminpoly eqSS -lt0n mxminpoly_nonconstant.
  have E : mxminpoly A = char_poly A.
    by apply/eqP; rewrite -eqp_monic ?mxminpoly_monic ?char_poly_monic.
  by split; rewrite E // size_char_poly.
suff -> : char_poly A = mxminpoly A by [].
apply/eqP; rewrite -eqp_monic ?mxminpoly_monic ?char_poly_monic // eqp_sym -dvdp_size_eqp ?mxminpoly_dvd_char //.
by rewrite size_char_poly -sz; move: irr.1; case: (size _).
Qed.

(** ** Eigenvectors *)
Lemma eigenvector_reducible A (x : 'cV[F]_t) (l : F) : (0 < n)%N -> x != 0 -> A *m x = l *: x -> ~ minpoly_irreducible A.
Proof.
move=> n0 x0 E /irreducible_stable H.
have {H} H y : exists a : F, y = a *: x.
  apply: (H (fun y => exists a : F, y = a *: x)); last by exists x => //; exists 1; rewrite scale1r.
    by split; [exists 0; rewrite scale0r | move=> a _ _ [b ->] [c ->]; exists (a * b + c); rewrite scalerDl scalerA].
  by move=> _ [a ->]; exists (a * l); rewrite -scalemxAr E scalerA.
have n1 : (1 < t)%N by [].
have [a /colP Ea] := H (delta_mx 0 0); have [b /colP Eb] := H (delta_mx (Ordinal n1) 0).
have a0 : a != 0.
  by apply/eqP => a0; have := Ea 0; rewrite a0 !mxE mul0r eqxx => /eqP; rewrite oner_eq0.
have x1 : x (Ordinal n1) 0 = 0.
  by apply: (mulfI a0); have := Ea (Ordinal n1); rewrite !mxE mulr0 => <-.
by have := Eb (Ordinal n1); rewrite !mxE x1 mulr0 !eqxx => /eqP; rewrite oner_eq0.
Qed.
End Irreducible.

(** ** The internal matrices of Poseidon2 do not meet the condition. *)
Lemma eigenvector_power (F : fieldType) n (A : 'M[F]_n.+1) (x : 'cV[F]_n.+1) (l : F) r :
  A *m x = l *: x -> A ^+ r *m x = l ^+ r *: x.
Proof.
move=> E; elim: r => [|r IH]; first by rewrite !expr0 mul1mx scale1r.
by rewrite exprS -mulmxE -mulmxA IH -scalemxAr E scalerA -exprSr.
Qed.

Lemma internal_reducible n r : (n == 1%N) || (n == 2%N) -> ~ minpoly_irreducible (internal_mx Fq_fieldType n.+1 ^+ r).
Proof.
case/orP => /eqP ->.
- have [x [x0 E]] := internal_eigenvector_2.
  by apply: (eigenvector_reducible _ x0 (eigenvector_power r E)).
- have [x [x0 E]] := internal_eigenvector_3 Fq_fieldType.
  have E1 : internal_mx Fq_fieldType 3 *m x = 1 *: x by rewrite scale1r.
  by apply: (eigenvector_reducible _ x0 (eigenvector_power r E1)).
Qed.
