(** The round constants of the shipped parameter sets are what the transcript yields. *)
From Coq Require Import ZArith NArith Uint63 Ascii String Lia.
From Bignums Require Import BigZ.
From mathcomp Require Import all_ssreflect all_algebra.
From Verif Require Import Slia Base Bytes Keccak Strobe KeccakExec MerlinExec Fq Matrix MatrixProofs Params Montgomery.
From Verif Require Import BigField RateChecks Shipped PrimeField Alpha Transcript TranscriptProofs.
Set Implicit Arguments.
Unset Strict Implicit.
Unset Printing Implicit Defensive.
Import GRing.Theory.
Local Open Scope nat_scope.
Delimit Scope Z_scope with Z.

(** * Six bytes to a machine integer, 48 bytes to a number *)
Definition le6 (a b c d e f : PrimInt63.int) : PrimInt63.int :=
  (a + 256 * (b + 256 * (c + 256 * (d + 256 * (e + 256 * f)))))%uint63.
Definition b48 : BigZ.t := Eval vm_compute in BigZ.of_Z (2 ^ 48).
Fixpoint bval (s : seq PrimInt63.int) : BigZ.t :=
  if s is [:: a, b, c, d, e, f & s'] then
    BigZ.add (BigZ.Pos (BigN.BigN.N0 (le6 a b c d e f))) (BigZ.mul b48 (bval s'))
  else BigZ.zero.

Lemma b48E : BigZ.to_Z b48 = (2 ^ 48)%Z. Proof. by vm_compute. Qed.

Lemma step8 b n x m k : rb b n -> (0 <= to_Z x < 2 ^ k)%Z -> to_Z x = Z.of_N m -> (8 <= k + 8 <= 62)%Z ->
  to_Z (b + 256 * x)%uint63 = Z.of_N (n + 256 * m) /\ (0 <= to_Z (b + 256 * x)%uint63 < 2 ^ (k + 8))%Z.
Proof.
move=> [Eb hb] hx Ex hk.
have E2 : (2 ^ (k + 8) = 256 * 2 ^ k)%Z by rewrite Z.pow_add_r; [lia | lia | lia].
have lt62 : (2 ^ (k + 8) <= 2 ^ 62)%Z by apply: Z.pow_le_mono_r; lia.
have hw : (0 <= 256 * to_Z x < wB)%Z.
  by rewrite -[wB]/(2 * 2 ^ 62)%Z; move: hx E2 lt62; move: (2 ^ _)%Z (2 ^ k)%Z (2 ^ 62)%Z => A B C; clear; lia.
have hw2 : (0 <= to_Z b + 256 * to_Z x < 2 ^ (k + 8))%Z.
  by move: hx E2 Eb hb; move: (2 ^ _)%Z (2 ^ k)%Z => A B; clear; lia.
have hw3 : (2 ^ (k + 8) < wB)%Z by apply: (Z.le_lt_trans _ _ _ lt62).
rewrite add_spec mul_spec -[to_Z 256]/256%Z (Z.mod_small (256 * _)%Z) // Z.mod_small.
  by split=> //; rewrite Eb Ex; clear; lia.
by move: hw2 hw3; move: (2 ^ _)%Z wB => A B; clear; lia.
Qed.

Lemma le6P a b c d e f na nb nc nd ne nf s t : rb a na -> rb b nb -> rb c nc -> rb d nd -> rb e ne -> rb f nf ->
  (s = Z.of_N (le_val t))%Z ->
  (to_Z (le6 a b c d e f) + 2 ^ 48 * s)%Z = Z.of_N (le_val [:: na, nb, nc, nd, ne, nf & t]).
Proof.
move=> ha hb hc hd he hf ->.
have [Ef0 hf0] := hf; have hf1 : (0 <= to_Z f < 2 ^ 8)%Z by rewrite Ef0; lia.
have [|E1 h1] := step8 he hf1 Ef0; first lia.
have [|E2 h2] := step8 hd h1 E1; first lia.
have [|E3 h3] := step8 hc h2 E2; first lia.
have [|E4 h4] := step8 hb h3 E3; first lia.
have [|E5 h5] := step8 ha h4 E4; first lia.
rewrite /le6 E5 !le_val_cons -[(2 ^ 48)%Z]/281474976710656%Z; move: (le_val t); clear => T; lia.
Qed.

Fixpoint xcheck (ls : seq limbs) (s : strobe PrimInt63.int) : bool :=
  if ls is l :: ls' then
    let: (b, s) := challenge_bytes PrimInt63.lxor byte_int xkeccak_f (str "round-constant") 48 s in
    BigZ.eqb (BigZ.modulo (bval b) bq) (bmont l) && xcheck ls' s
  else true.

Definition msgs (t : nat) : seq (bytes * bytes) :=
  [:: (str "dom-sep", str "poseidon-paramgen");
      (str "t", le_bytes 8 (N.of_nat t));
      (str "M", le_bytes 8 128);
      (str "p", le_bytes 32 (Z.to_N q));
      (str "r_F", [:: 8%num]); (str "r_P", [:: 31%num]); (str "alpha", le_bytes 4 17)].
Definition xstart (t : nat) : strobe PrimInt63.int :=
  foldl (fun s m => append_message PrimInt63.lxor byte_int xkeccak_f m.1 m.2 s)
    (transcript_new PrimInt63.lxor byte_int xkeccak_f (str "round-constants")) (msgs t).
Definition arc_ok (r : params limbs) : bool := xcheck (elements (p_arc r)) (xstart (p_t r)).
Lemma arcs_ok : all arc_ok shipped_raw = true.
Proof. vm_cast_no_check (erefl true). Qed.

(** * Soundness *)
Lemma bvalP n s t : size t = 6 * n -> rbs s t -> BigZ.to_Z (bval s) = Z.of_N (le_val t).
Proof.
elim: n s t => [|n IH] s t E; first by case: t E => //; case: s => // ? ? _ [].
move: E; rewrite mulnS; do 6 (case: t => // ? t); move=> -[E] H; have [Es _] := H.
do 6 (case: s Es H => [|? s] Es H; [by move: Es | case: Es => Es]).
move: H => /rbs_uncons [h0] /rbs_uncons [h1] /rbs_uncons [h2] /rbs_uncons [h3] /rbs_uncons [h4] /rbs_uncons [h5] H.
rewrite -(le6P h0 h1 h2 h3 h4 h5 (IH _ _ E H)).
rewrite -b48E -BigZ.spec_mul.
set x := le6 _ _ _ _ _ _; set y := BigZ.mul _ _.
rewrite -[LHS]/(BigZ.to_Z (BigZ.add (BigZ.Pos (BigN.BigN.N0 x)) y)) BigZ.spec_add; reflexivity.
Qed.

Lemma u8K s t : rbs s t -> map u8 t = t.
Proof.
move=> [_ H]; apply: (@eq_from_nth _ 0%num); rewrite size_map // => i hi.
by rewrite (nth_map 0%num) // /u8 N.mod_small //; have [] := H i.
Qed.

Local Notation Ichallenge := (challenge_bytes PrimInt63.lxor byte_int xkeccak_f).
Local Notation Nchallenge := (challenge_bytes N.lxor u8 keccak_f).
Lemma size_challenge l n (s : strobe N) : size (Nchallenge l n s).1 = n.
Proof. exact: size_squeeze. Qed.
Local Opaque challenge_bytes keccak_f xkeccak_f.
Lemma xcheckS l ls s : xcheck (l :: ls) s =
  let x := Ichallenge (str "round-constant") 48 s in
  BigZ.eqb (BigZ.modulo (bval x.1) bq) (bmont l) && xcheck ls x.2.
Proof. by rewrite [LHS]/=; case: challenge_bytes => b s1; reflexivity. Qed.
Lemma round_constantsS PF Me n s : (@round_constants PF Me n.+1 s).1 =
  let x := tr_challenge (str "round-constant") (size_in_bytes PF) s in
  pf_of PF (Z.of_N (le_val x.1)) :: (@round_constants PF Me n x.2).1.
Proof.
rewrite [round_constants _ _ _]/= /round_constant; case: tr_challenge => b s1.
by case: round_constants => cs s2; reflexivity.
Qed.
Lemma challengeE l n (s : strobe N) :
  let x := @tr_challenge merlin128 l n s in let y := Nchallenge l n s in (x.1 = map u8 y.1) /\ (x.2 = y.2 :> strobe N).
Proof. by rewrite [tr_challenge _ _ _]/=; case: challenge_bytes => b s1; split; reflexivity. Qed.
Lemma Fq48 : size_in_bytes Fq_pf = 48. Proof. by vm_compute. Qed.

Lemma xcheckP ls s (t : strobe N) : rs 166 s t -> xcheck ls s ->
  (@round_constants Fq_pf merlin128 (size ls) t).1 = map from_montgomery_limbs ls.
Proof.
elim: ls s t => [|l ls IH] s t H; first by [].
rewrite xcheckS [size (_ :: _)]/= round_constantsS Fq48.
have [h1 H2] := challenge_bytesP (str "round-constant") 48 H.
have S48 := size_challenge (str "round-constant") 48 t.
have [E1 E2] := challengeE (str "round-constant") 48 t.
move: (tr_challenge _ _ _) E1 E2 => -[b3 t3]; rewrite [fst _]/= [snd _]/= => -> ->.
move: h1 H2 S48; move: (Nchallenge _ _ _) (Ichallenge _ _ _) => -[b2 t2] [b1 s1].
rewrite -[fst _]/b1 -[fst (b2, _)]/b2 -[snd _]/s1 -[snd (_, t2)]/t2.
move=> h1 H2 S48 /andP [/phi_eq].
rewrite -[Check.oeq _ _ _]/(phi (BigZ.modulo (bval b1) bq) == phi (bmont l)) phi_bmont => /eqP Ec /(IH _ _ H2) Er.
have Ev : pf_of Fq_pf (Z.of_N (le_val (map u8 b2))) = from_montgomery_limbs l.
  by rewrite (u8K h1) -(@bvalP 8 b1) ?S48 // -Ec /phi BigZ.spec_modulo bqE Fq_of_Z_mod; reflexivity.
exact: (f_equal2 cons Ev Er).
Qed.

Lemma startP t : rs 166 (xstart t)
  (foldl (fun s m => append_message N.lxor u8 keccak_f m.1 m.2 s)
    (transcript_new N.lxor u8 keccak_f (str "round-constants")) (msgs t)).
Proof.
rewrite /xstart; have := transcript_newP (str "round-constants").
elim: (msgs t) (transcript_new PrimInt63.lxor _ _ _) (transcript_new N.lxor _ _ _) => [|m l IH] s u H //.
by apply: IH; exact: append_messageP.
Qed.

Local Opaque append_message transcript_new.
Lemma domain_sepE L (i : input L) t : in_M i = 128%num -> in_t i = t -> in_p i = q -> in_p_limbs i = 4 ->
  domain_sep (Me := merlin128) i (RoundNumbers 31 8) (Exponent 17) (tr_new merlin128 (str "round-constants")) =
  foldl (fun s m => append_message N.lxor u8 keccak_f m.1 m.2 s)
    (transcript_new N.lxor u8 keccak_f (str "round-constants")) (msgs t) :> strobe N.
Proof. by case: i => [a M t' p l lg] /= -> -> -> ->; reflexivity. Qed.

Section Shipped.
Variables (L : Type) (p : params Fq_fieldType).
Hypothesis hp : List.In p shipped.

Theorem shipped_arc (i : input L) : in_M i = 128%num -> in_t i = p_t p -> in_p i = q -> in_p_limbs i = 4 ->
  v1_generate_arc Fq_pf merlin128 i (RoundNumbers 31 8) (Exponent 17) = Ret (p_arc p).
Proof.
move=> EM Et Ep El.
have [wt _ _ _ Er] := shipped_spec hp; have wf : wf_shape (rounds_total (p_rounds p)) (p_t p) (p_arc p).
  by case/and5P: (shipped_wf hp) => _ _ ->.
have [r hr E] := shipped_rawP hp; have := all_In arcs_ok hr.
have tr : p_t r = p_t p by rewrite E.
rewrite /arc_ok tr => /(xcheckP (startP (p_t p))).
have -> : map from_montgomery_limbs (elements (p_arc r)) = elements (p_arc p) by rewrite E.
have [els [-> S1 ->]] := @v1_arcE L Fq_pf merlin128 i (RoundNumbers 31 8) (Exponent 17).
rewrite (domain_sepE EM Et Ep El).
have [/eqP Erow /eqP Ecol /eqP Esz] := and3P wf; rewrite Er in Erow Esz.
have Sr : size (elements (p_arc r)) = (31 + 8) * p_t p.
  by rewrite -Esz E /= size_map.
rewrite Sr Et => ->; rewrite -[r_P _]/31 -[r_F _]/8.
by case: (p_arc p) Erow Ecol => nr nc e /= -> ->.
Qed.
End Shipped.
