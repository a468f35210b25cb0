(** Proofs about the selection of the S-box exponent. *)
From Coq Require Import ZArith NArith Lia.
From mathcomp Require Import all_ssreflect all_algebra.
From Verif Require Import Base Params Bytes Fq PrimeField Alpha.
Set Implicit Arguments.
Unset Strict Implicit.
Unset Printing Implicit Defensive.
Import GRing.Theory.
Delimit Scope Z_scope with Z.

(** * Byte encoding *)

Lemma alpha_bytes_exponent e : (e < 2 ^ 32)%num ->
  size (alpha_to_bytes_le (Exponent e)) = 4 /\ is_bytes (alpha_to_bytes_le (Exponent e)) /\
  le_val (alpha_to_bytes_le (Exponent e)) = e.
Proof.
move=> he; split; first exact: size_le_bytes.
split; first exact: le_bytes_bytes.
by rewrite /alpha_to_bytes_le le_bytesK N.mod_small.
Qed.

Lemma alpha_bytes_inj e e' : (e < 2 ^ 32)%num -> (e' < 2 ^ 32)%num ->
  alpha_to_bytes_le (Exponent e) = alpha_to_bytes_le (Exponent e') -> e = e'.
Proof. by move=> h h'; apply: le_bytes_inj. Qed.

Lemma alpha_bytes_inverse e : (e < 2 ^ 32)%num ->
  alpha_to_bytes_le (Exponent e) = alpha_to_bytes_le Inverse <-> e = (2 ^ 32 - 1)%num.
Proof.
by move=> h; split=> [|-> //]; apply: le_bytes_inj.
Qed.

(** * Selection *)

(** The odd exponents of the table, in the order in which they are tried. *)
Definition odd_exponents : seq nat :=
  [:: 3; 5; 9; 7; 17; 15; 13; 11; 33; 27; 25; 23; 21; 19; 65; 51; 49; 45; 43; 41; 39; 37; 35; 31; 29].

Lemma odd_exponentsE :
  map N.to_nat (filter (fun c => negb (c mod 2 =? 0)%num) depths_in_order) = odd_exponents.
Proof. by []. Qed.

Section Gen.
Variable PF : prime_field.
Local Notation p := (pf_p PF).

(** What the test computes, on integers. *)
Definition test (c : Z) : bool := (Z.gcd (c mod p) (p - 1) mod p =? 1)%Z.

Lemma coprime_testE c : alpha_coprime_to_p_minus_one PF c p = Ret (test (Z.of_N c)).
Proof.
have p1 := pf_p_gt1 PF.
have -> : alpha_coprime_to_p_minus_one PF c p =
    if (p <? pf_to (1%R : PF))%Z then Panic
    else Ret (pf_of PF (Z.gcd (pf_to (pf_of PF (Z.of_N c))) (p - pf_to (1%R : PF))) == 1%R) by [].
have -> : pf_to (1%R : PF) = 1%Z by rewrite -pf_of_1 pf_to_of Z.mod_small; lia.
case: Z.ltb_spec => h; first by lia.
rewrite pf_to_of; congr Ret; rewrite /test; set g := Z.gcd _ _.
apply/eqP/Z.eqb_spec => [|E]; first by rewrite -pf_of_1 => /pf_of_eq ->; rewrite Z.mod_small; lia.
by rewrite -pf_of_1; apply/pf_of_eq; rewrite E Z.mod_small; lia.
Qed.

Lemma find_alphaE cs : find_alpha PF p cs =
  Ret (ohead (filter (fun c => negb (c mod 2 =? 0)%num && test (Z.of_N c)) cs)).
Proof.
elim: cs => //= c cs ->; case: (_ mod _ =? _)%num => //=.
by rewrite coprime_testE bind_ret; case: test.
Qed.

Lemma coprime_gcd (a b : Z) : (0 <= a)%Z -> (0 <= b)%Z ->
  coprime (Z.to_nat a) (Z.to_nat b) = (Z.gcd a b =? 1)%Z.
Proof.
move=> a0 b0; apply/idP/Z.eqb_spec.
- move=> cop; have g0 := Z.gcd_nonneg a b.
  have [u ua] := Z.gcd_divide_l a b; have [v vb] := Z.gcd_divide_r a b.
  set g := Z.gcd a b in g0 ua vb *.
  have dv : (Z.to_nat g %| gcdn (Z.to_nat a) (Z.to_nat b))%N.
    rewrite dvdn_gcd; apply/andP; split; apply/dvdnP.
    + case: (Z.eq_dec a 0) => [->|na]; first by exists 0%N.
      by exists (Z.to_nat u); rewrite ua Z2Nat.inj_mul //; nia.
    + case: (Z.eq_dec b 0) => [->|nb]; first by exists 0%N.
      by exists (Z.to_nat v); rewrite vb Z2Nat.inj_mul //; nia.
  by move: dv; rewrite (eqP cop) dvdn1 => /eqP; lia.
- move=> g1; have [u [v E]] := Z.gcd_bezout a b 1 g1.
  apply/eqP/eqP; rewrite -dvdn1.
  set g := gcdn _ _.
  have /dvdnP [x xa] := dvdn_gcdl (Z.to_nat a) (Z.to_nat b).
  have /dvdnP [y yb] := dvdn_gcdr (Z.to_nat a) (Z.to_nat b).
  rewrite -/g in xa yb.
  have ea : a = (Z.of_nat x * Z.of_nat g)%Z by rewrite -Nat2Z.inj_mul multE -xa Z2Nat.id.
  have eb : b = (Z.of_nat y * Z.of_nat g)%Z by rewrite -Nat2Z.inj_mul multE -yb Z2Nat.id.
  have dg : (Z.of_nat g | 1)%Z.
    by exists (u * Z.of_nat x + v * Z.of_nat y)%Z; rewrite -E ea eb; ring.
  have := Z.divide_1_r_nonneg _ (Nat2Z.is_nonneg g) dg.
  by rewrite dvdn1 => h; apply/eqP; lia.
Qed.

Lemma depths_range : all (fun c => (0 <? c) && (c <=? 128))%num depths_in_order.
Proof. by []. Qed.

Definition cop (e : nat) : bool := coprime e (Z.to_nat (p - 1)).

Lemma test_big c : (128 < p)%Z -> (0 < c <= 128)%num -> test (Z.of_N c) = cop (N.to_nat c).
Proof.
move=> p128 hc; rewrite /cop -[N.to_nat c]Nat2Z.id N_nat_Z coprime_gcd; [|lia|lia].
rewrite /test (Z.mod_small (Z.of_N c)); last by lia.
have g0 := Z.gcd_nonneg (Z.of_N c) (p - 1).
have gc : (Z.gcd (Z.of_N c) (p - 1) <= Z.of_N c)%Z.
  by apply: Z.divide_pos_le; [lia | exact: Z.gcd_divide_l].
by rewrite Z.mod_small //; lia.
Qed.

Lemma filterE : (128 < p)%Z ->
  map N.to_nat (filter (fun c => negb (c mod 2 =? 0)%num && test (Z.of_N c)) depths_in_order)
  = (filter (fun e => cop e) odd_exponents).
Proof.
move=> p128; rewrite -odd_exponentsE filter_map -filter_predI; congr map.
apply: eq_in_filter => c cin /=; rewrite andbC; case: (negb _); rewrite ?andbF ?andbT //.
have /allP /(_ c cin) /andP [/N.ltb_lt h1 /N.leb_le h2] := depths_range.
exact: test_big.
Qed.

Lemma ohead_filter (T : eqType) (a : pred T) (s : seq T) x :
  ohead (filter (fun y => a y) s) = Some x <->
  exists pre post, [/\ s = pre ++ x :: post, a x & forall y, y \in pre -> ~~ a y].
Proof.
split.
- elim: s => //= y s IH; case: ifP => /= ay.
    by case=> <-; exists [::], s.
  by case/IH=> pre [post [-> ax H]]; exists (y :: pre), post; split=> // z;
     rewrite inE => /orP [/eqP -> |/H //]; rewrite ay.
- case=> pre [post [-> ax H]]; rewrite filter_cat /= ax.
  have -> : (filter (fun y => a y) pre) = [::].
    by apply/eqP; rewrite -(negbK (_ == _)) -has_filter; apply/hasPn.
  by [].
Qed.

Lemma ohead_filter0 (T : eqType) (a : pred T) (s : seq T) :
  ohead (filter (fun y => a y) s) = None <-> forall y, y \in s -> ~~ a y.
Proof.
have -> : (ohead (filter (fun y => a y) s) = None) <-> ((filter (fun y => a y) s) = [::]) by case: filter.
split=> [E y ys|H]; first by apply: contraFN (in_nil y) => ay; rewrite -E mem_filter ay.
by apply/eqP; rewrite -(negbK (_ == _)) -has_filter; apply/hasPn.
Qed.

Lemma generateE allow : (128 < p)%Z ->
  alpha_generate PF p allow =
  match ohead (filter (fun e => cop e) odd_exponents) with
  | Some e => Ret (Exponent (N.of_nat e))
  | None => if allow then Ret Inverse else Panic
  end.
Proof.
move=> p128; rewrite /alpha_generate find_alphaE bind_ret -filterE //.
by case: (filter (fun c => _) _) => //= c s; rewrite N2Nat.id.
Qed.

Lemma generate_exponent allow e : (128 < p)%Z ->
  alpha_generate PF p allow = Ret (Exponent e) <->
  exists pre post, [/\ odd_exponents = pre ++ N.to_nat e :: post,
    coprime (N.to_nat e) (Z.to_nat (p - 1)) &
    forall e', e' \in pre -> ~~ coprime e' (Z.to_nat (p - 1))].
Proof.
move=> p128; rewrite generateE // -(@ohead_filter _ cop).
case: ohead => [e'|]; last by case: allow.
by split=> [[<-]|[->]]; rewrite ?Nat2N.id ?N2Nat.id.
Qed.

Lemma generate_inverse allow : (128 < p)%Z ->
  alpha_generate PF p allow = Ret Inverse <->
  allow = true /\ forall e, e \in odd_exponents -> ~~ coprime e (Z.to_nat (p - 1)).
Proof.
move=> p128; rewrite generateE // -(@ohead_filter0 _ cop).
by case: ohead => [e'|]; [split=> [//|[_ //]] | case: allow; split=> // -[]].
Qed.

Lemma generate_panic allow : (128 < p)%Z ->
  alpha_generate PF p allow = Panic <->
  allow = false /\ forall e, e \in odd_exponents -> ~~ coprime e (Z.to_nat (p - 1)).
Proof.
move=> p128; rewrite generateE // -(@ohead_filter0 _ cop).
by case: ohead => [e'|]; [split=> [//|[_ //]] | case: allow; split=> // -[]].
Qed.
End Gen.

(** Whatever the size of the prime, the selected exponent is a bijective S-box. *)

Definition ztest (p c : Z) : bool := (Z.gcd (c mod p) (p - 1) mod p =? 1)%Z.
Definition small_ok (p : Z) : bool :=
  if ohead (filter (fun c => negb (c mod 2 =? 0)%num && ztest p (Z.of_N c)) depths_in_order) is Some c
  then (Z.gcd (Z.of_N c) (p - 1) =? 1)%Z else true.
Lemma small_primes_ok :
  all (fun n => small_ok (Z.of_nat n)) (filter prime (iota 2 127)).
Proof. by vm_compute. Qed.

Lemma generate_coprime (PF : prime_field) allow e :
  alpha_generate PF (pf_p PF) allow = Ret (Exponent e) ->
  (0 < e)%num /\ coprime (N.to_nat e) (Z.to_nat (pf_p PF - 1)).
Proof.
have p1 := pf_p_gt1 PF; move=> E; split.
  move: E; rewrite /alpha_generate find_alphaE bind_ret.
  case E: ohead => [c|]; last by case: allow.
  case=> <-; have : c \in (filter (fun c => negb (c mod 2 =? 0)%num && test PF (Z.of_N c)) depths_in_order).
    by case: (filter _ _) E => //= x s [->]; rewrite mem_head.
  rewrite mem_filter => /andP [_ cin].
  by have /allP /(_ c cin) /andP [/N.ltb_lt ] := depths_range.
case: (Z.lt_ge_cases 128 (pf_p PF)) => [big|small].
  by have [pre [post []]] := (generate_exponent allow e big).1 E.
move: E; rewrite /alpha_generate find_alphaE bind_ret.
have /allP /(_ (Z.to_nat (pf_p PF))) := small_primes_ok.
rewrite mem_filter pf_prime mem_iota /small_ok Z2Nat.id; last by lia.
move=> H; have {}H := H _.
rewrite -[test PF]/(ztest (pf_p PF)) in H *.
case: ohead H => [c|] H; last by case: allow.
case=> <-; rewrite -[N.to_nat c]Nat2Z.id N_nat_Z coprime_gcd; [|lia|lia].
by apply: H; apply/and3P; split=> //; apply/ltP; rewrite -?plusE; lia.
Qed.

Lemma generate_bijective (PF : prime_field) allow e :
  alpha_generate PF (pf_p PF) allow = Ret (Exponent e) ->
  bijective (fun x : PF => (x ^+ N.to_nat e)%R).
Proof.
by case/generate_coprime=> e0 cop; apply: pf_pow_bij => //; apply/ltP; lia.
Qed.
