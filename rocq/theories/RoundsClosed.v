(** The search for round numbers in closed form, for S-boxes [x -> x^e]: the
    candidates secure according to Poseidon1 are those with at least [S] full
    rounds and more than [B] rounds in total. *)
From Coq Require Import ZArith NArith Lia.
From mathcomp Require Import all_ssreflect.
From Verif Require Import Base Params Transcript Rounds RoundsSpec F64Proofs RoundsSearch Slia.
Set Implicit Arguments.
Unset Strict Implicit.
Unset Printing Implicit Defensive.

(** The selection: [n] rounds in total, [s] of them full, are required. *)
Definition select_rF (s n : nat) : nat := Nat.max s (n - 399).
Definition select_rP (s n : nat) : nat := Nat.max 1 (n - select_rF s n).
Definition select (s n : nat) : rounds := RoundNumbers (select_rP s n) (select_rF s n).

Lemma as_usize_ge0 x : (0 <= as_usize x)%Z.
Proof. by rewrite /as_usize; lia. Qed.

Section Closed.
Variables (t s n : nat).
Definition enough (c : rounds) : Prop := s <= r_F c /\ n <= rounds_total c.

Lemma select_candidate : 4 <= s < 100 -> n <= 498 -> candidate (select s n) /\ enough (select s n).
Proof.
move=> s4 Hn; rewrite /candidate /enough /rounds_total.
rewrite -[r_P (select s n)]/(select_rP s n) -[r_F (select s n)]/(select_rF s n).
have := erefl (select_rF s n); rewrite {2}/select_rF.
have := erefl (select_rP s n); rewrite {2}/select_rP.
by move: (select_rF _ _) (select_rP _ _) => f p Hp Hf; split; split; slia.
Qed.

Lemma none_enough : 498 < n -> forall c, candidate c -> ~ enough c.
Proof. by move=> Hn c [H1 H2 H3 H4] [H5]; rewrite /rounds_total; slia. Qed.

(** Trading a partial round for a full one never pays: it costs [t >= 2] S-boxes
    and saves at most two. *)
Lemma select_cheapest : 2 <= t -> 4 <= s < 100 -> n <= 498 -> cheapest enough t (select s n) (margin (select s n)).
Proof.
move=> t2 s4 Hn; have [H1 H2] := select_candidate s4 Hn.
split=> //; first exact: margin_with.
move=> c' r' [A1 A2 A3 A4] [A5 A6] /with_marginE -> N.
case: (margin_with (select s n)) => F1 P1 P2; case: (margin_with c') => F2 P3 P4.
have [k Hk] : exists k, r_F c' = select_rF s n + k.
  by exists (r_F c' - select_rF s n); rewrite /select_rF; move: A6; rewrite /rounds_total; slia.
rewrite -[r_F (select s n)]/(select_rF s n) in F1.
rewrite -[r_P (select s n)]/(select_rP s n) in P1 P2.
have Hp : select_rP s n <= r_P c' + k.
  by move: A6; rewrite /select_rP /rounds_total; slia.
have Hp0 : k = 0 -> select_rP s n <> r_P c'.
  move=> k0 E; apply: N; apply: rounds_eq => //=; slia.
rewrite /sboxes F1 F2 Hk.
move: Hp Hp0 P1 P2 P3 P4; set a := r_P (margin _); set b := r_P (margin _).
move: (r_P c') (select_rP s n) (select_rF s n) a b => p' p f a b Hp Hp0 P1 P2 P3 P4.
have T : t * (f + k + 2) = t * (f + 2) + t * k by rewrite -mulnDr; congr (_ * _); slia.
have T2 : 2 * k <= t * k by rewrite leq_mul2r t2 orbT.
rewrite T; move: (t * (f + 2)) (t * k) T2 => x y T2.
case: (k =P 0) => [k0|k0].
  by left; have := Hp0 k0; slia.
have : a <= b + 2 * k by slia.
move=> H; case: (ltngtP (x + a) (x + y + b)) => H'; first by left.
  by clear -H H' T2; slia.
by right; split=> //; clear -k0; slia.
Qed.
End Closed.

Lemma cheapest_ext (S S' : rounds -> Prop) t c r :
  (forall c, candidate c -> S c <-> S' c) -> cheapest S t c r -> cheapest S' t c r.
Proof.
move=> H [H1 H2 H3 H4]; split=> //; first by apply/H.
by move=> c' r' Hc /(H _ Hc); apply: H4.
Qed.

Section V1.
Variable lm : libm.
Variables (i : input f64) (e : N).
Hypothesis t2 : 2 <= in_t i.
Hypothesis t_small : small (in_t i).

Let s := statistical_attack_full_rounds lm i (Exponent e).
Let I := algebraic_attack_interpolation lm i (Exponent e).

Lemma grobner_ret a : exists G, algebraic_attack_grobner_basis_v1 lm i a = Ret G.
Proof.
rewrite /algebraic_attack_grobner_basis_v1 /usub (_ : 1 <= in_t i) /=; last by slia.
by case: a => [?|]; eexists.
Qed.

Lemma s_610 a : statistical_attack_full_rounds lm i a = 6 \/ statistical_attack_full_rounds lm i a = 10.
Proof. by rewrite /statistical_attack_full_rounds; case: ifP; [left | right]. Qed.

Lemma secure_enough G c : algebraic_attack_grobner_basis_v1 lm i (Exponent e) = Ret G ->
  is_secure_v1 lm i (Exponent e) c = Ret true <-> enough s (Z.to_nat (Z.max I G)).+1 c.
Proof.
move=> HG; rewrite /is_secure_v1 -/s -/I HG /enough bind_ret.
have I0 : (0 <= I)%Z by apply: as_usize_ge0.
case: ifP => Hs; first by split=> // -[]; slia.
case: Z.leb_spec => HI; first by split=> // -[_]; slia.
case: Z.leb_spec => HG' /=; first by split=> // -[_]; slia.
by split=> // _; split; slia.
Qed.

Lemma secure_ret c : exists b, is_secure_v1 lm i (Exponent e) c = Ret b.
Proof.
rewrite /is_secure_v1; case: ifP => _; first by eexists.
case: ifP => _; first by eexists.
by have [G ->] := grobner_ret (Exponent e); eexists.
Qed.

(** The selected round numbers *)
Theorem v1_rounds_closed G : (in_M i <= 256)%num ->
  algebraic_attack_grobner_basis_v1 lm i (Exponent e) = Ret G ->
  v1_rounds lm i (Exponent e) =
  (if (Z.to_nat (Z.max I G)).+1 <= 498 then Ret (margin (select s (Z.to_nat (Z.max I G)).+1)) else Panic).
Proof.
move=> HM HG; rewrite /v1_rounds.
have -> : N.ltb 256 (in_M i) = false by apply/N.ltb_spec0 => ?; lia.
set n := _.+1.
have s4 : 4 <= s < 100 by rewrite /s; case: (s_610 (Exponent e)) => ->.
case Hn: (n <= 498); last move: Hn => /negbT; rewrite -?ltnNge.
  case E: (search _ _) => [r|]; last first.
    case/(search_panic _ t_small): E => [[c _]|H].
      by have [b ->] := secure_ret c.
    have [H1 H2] := select_candidate s4 Hn.
    by move: H2 => /(secure_enough _ HG); rewrite H.
  have [c Hc] := search_ret t_small E.
  have Hc' := select_cheapest t2 s4 Hn.
  have := cheapest_unique Hc (cheapest_ext (fun c _ => iff_sym (secure_enough c HG)) Hc').
  by case=> // _ ->.
move=> Hn; apply/(search_panic _ t_small); right=> c Hc.
have [b E] := secure_ret c; rewrite E; case: b E => // E.
by move/(secure_enough c HG): E => E; case: (none_enough Hn Hc E).
Qed.
End V1.
