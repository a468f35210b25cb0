(** [Keccak.v] on machine integers, to run it: a lane is a pair of 32-bit halves
    (high, low).  [xkeccak_fP] relates the two. *)
From Coq Require Import ZArith NArith Lia Uint63.
From mathcomp Require Import all_ssreflect.
From Verif Require Import Bytes Keccak Slia.
Set Implicit Arguments.
Unset Strict Implicit.
Unset Printing Implicit Defensive.
Delimit Scope Z_scope with Z.
Local Open Scope nat_scope.

Definition lane := (int * int)%type.
Definition wxor (a b : lane) : lane :=
  let (ah, al) := a in let (bh, bl) := b in (PrimInt63.lxor ah bh, PrimInt63.lxor al bl).
Definition wswap (a : lane) : lane := let (ah, al) := a in (al, ah).
Definition mask32 : int := 4294967295.
(** Rotation by 0 < n < 32. *)
Definition wrol (n : int) (a : lane) : lane :=
  let (h, l) := a in
  let m := PrimInt63.sub 32 n in
  (PrimInt63.land (PrimInt63.lor (PrimInt63.lsl h n) (PrimInt63.lsr l m)) mask32,
   PrimInt63.land (PrimInt63.lor (PrimInt63.lsl l n) (PrimInt63.lsr h m)) mask32).
Definition wchi (a b c : lane) : lane :=
  let (ah, al) := a in let (bh, bl) := b in let (ch, cl) := c in
  (PrimInt63.lxor ah (PrimInt63.land (PrimInt63.lxor bh mask32) ch),
   PrimInt63.lxor al (PrimInt63.land (PrimInt63.lxor bl mask32) cl)).

Definition xtheta (s : seq lane) : seq lane :=
  match s with
  | [:: a0; a1; a2; a3; a4;
       a5; a6; a7; a8; a9;
       a10; a11; a12; a13; a14;
       a15; a16; a17; a18; a19;
       a20; a21; a22; a23; a24] =>
    let c0 := wxor (wxor (wxor (wxor a0 a5) a10) a15) a20 in
    let c1 := wxor (wxor (wxor (wxor a1 a6) a11) a16) a21 in
    let c2 := wxor (wxor (wxor (wxor a2 a7) a12) a17) a22 in
    let c3 := wxor (wxor (wxor (wxor a3 a8) a13) a18) a23 in
    let c4 := wxor (wxor (wxor (wxor a4 a9) a14) a19) a24 in
    let d0 := wxor c4 (wrol 1 c1) in
    let d1 := wxor c0 (wrol 1 c2) in
    let d2 := wxor c1 (wrol 1 c3) in
    let d3 := wxor c2 (wrol 1 c4) in
    let d4 := wxor c3 (wrol 1 c0) in
    [:: wxor a0 d0; wxor a1 d1; wxor a2 d2; wxor a3 d3; wxor a4 d4;
       wxor a5 d0; wxor a6 d1; wxor a7 d2; wxor a8 d3; wxor a9 d4;
       wxor a10 d0; wxor a11 d1; wxor a12 d2; wxor a13 d3; wxor a14 d4;
       wxor a15 d0; wxor a16 d1; wxor a17 d2; wxor a18 d3; wxor a19 d4;
       wxor a20 d0; wxor a21 d1; wxor a22 d2; wxor a23 d3; wxor a24 d4]
  | _ => s
  end.
Definition xrhopi (s : seq lane) : seq lane :=
  match s with
  | [:: a0; a1; a2; a3; a4;
       a5; a6; a7; a8; a9;
       a10; a11; a12; a13; a14;
       a15; a16; a17; a18; a19;
       a20; a21; a22; a23; a24] =>
    [:: a0; wrol 12 (wswap a6); wrol 11 (wswap a12); wrol 21 a18; wrol 14 a24;
       wrol 28 a3; wrol 20 a9; wrol 3 a10; wrol 13 (wswap a16); wrol 29 (wswap a22);
       wrol 1 a1; wrol 6 a7; wrol 25 a13; wrol 8 a19; wrol 18 a20;
       wrol 27 a4; wrol 4 (wswap a5); wrol 10 a11; wrol 15 a17; wrol 24 (wswap a23);
       wrol 30 (wswap a2); wrol 23 (wswap a8); wrol 7 (wswap a14); wrol 9 (wswap a15); wrol 2 a21]
  | _ => s
  end.
Definition xchi (rc : lane) (s : seq lane) : seq lane :=
  match s with
  | [:: a0; a1; a2; a3; a4;
       a5; a6; a7; a8; a9;
       a10; a11; a12; a13; a14;
       a15; a16; a17; a18; a19;
       a20; a21; a22; a23; a24] =>
    [:: wxor (wchi a0 a1 a2) rc; wchi a1 a2 a3; wchi a2 a3 a4; wchi a3 a4 a0; wchi a4 a0 a1;
       wchi a5 a6 a7; wchi a6 a7 a8; wchi a7 a8 a9; wchi a8 a9 a5; wchi a9 a5 a6;
       wchi a10 a11 a12; wchi a11 a12 a13; wchi a12 a13 a14; wchi a13 a14 a10; wchi a14 a10 a11;
       wchi a15 a16 a17; wchi a16 a17 a18; wchi a17 a18 a19; wchi a18 a19 a15; wchi a19 a15 a16;
       wchi a20 a21 a22; wchi a21 a22 a23; wchi a22 a23 a24; wchi a23 a24 a20; wchi a24 a20 a21]
  | _ => s
  end.
Definition xrcs : seq lane :=
  [:: (0, 1); (0, 32898); (2147483648, 32906); (2147483648, 2147516416);
      (0, 32907); (0, 2147483649); (2147483648, 2147516545); (2147483648, 32777);
      (0, 138); (0, 136); (0, 2147516425); (0, 2147483658);
      (0, 2147516555); (2147483648, 139); (2147483648, 32905); (2147483648, 32771);
      (2147483648, 32770); (2147483648, 128); (0, 32778); (2147483648, 2147483658);
      (2147483648, 2147516545); (2147483648, 32896); (0, 2147483649); (2147483648, 2147516424)]%uint63.
Definition xkeccak (s : seq lane) : seq lane := foldl (fun s rc => xchi rc (xrhopi (xtheta s))) s xrcs.

Definition pack (a b c d : int) : int :=
  PrimInt63.lor a (PrimInt63.lor (PrimInt63.lsl b 8) (PrimInt63.lor (PrimInt63.lsl c 16) (PrimInt63.lsl d 24))).
Fixpoint lanes_of (s : seq int) : seq lane :=
  if s is [:: a, b, c, d, e, f, g, h & s'] then (pack e f g h, pack a b c d) :: lanes_of s' else [::].
Definition mask8 : int := 255.
Definition unpack (a : int) : seq int :=
  [:: PrimInt63.land a mask8; PrimInt63.land (PrimInt63.lsr a 8) mask8; PrimInt63.land (PrimInt63.lsr a 16) mask8;
      PrimInt63.land (PrimInt63.lsr a 24) mask8].
Definition xbytes_of (s : seq lane) : seq int :=
  foldr (fun (a : lane) acc => let (h, l) := a in unpack l ++ unpack h ++ acc) [::] s.
Definition xkeccak_f (s : seq int) : seq int := xbytes_of (xkeccak (lanes_of s)).

(** * Bits of machine integers *)
Definition ib (x : int) (k : nat) : bool := Z.testbit (to_Z x) (Z.of_nat k).

Lemma ib_xor x y k : ib (PrimInt63.lxor x y) k = ib x k (+) ib y k.
Proof. by rewrite /ib lxor_spec' Z.lxor_spec; case: Z.testbit; case: Z.testbit. Qed.
Lemma ib_and x y k : ib (PrimInt63.land x y) k = ib x k && ib y k.
Proof. by rewrite /ib land_spec' Z.land_spec. Qed.
Lemma ib_or x y k : ib (PrimInt63.lor x y) k = ib x k || ib y k.
Proof. by rewrite /ib lor_spec' Z.lor_spec. Qed.
Lemma ib_shl x n m k : to_Z n = Z.of_nat m -> ib (PrimInt63.lsl x n) k = (m <= k < 63) && ib x (k - m).
Proof.
move=> E; rewrite /ib lsl_spec E.
have [k63|k63] := ltnP k 63; last first.
  rewrite andbF Z.mod_pow2_bits_high //; split; first by [].
  by rewrite -[Z.of_nat Uint63.size]/63%Z; move: k63; clear; slia.
rewrite andbT (Z.mod_pow2_bits_low _ 63); last by move: k63; clear; slia.
rewrite Z.mul_pow2_bits; last exact: Nat2Z.is_nonneg.
case: leqP => h; first by congr Z.testbit; move: h; clear; slia.
by rewrite Z.testbit_neg_r //; move: h; clear; slia.
Qed.
Lemma ib_shr x n m k : to_Z n = Z.of_nat m -> ib (PrimInt63.lsr x n) k = ib x (k + m).
Proof.
move=> E; rewrite /ib lsr_spec E Z.div_pow2_bits; [|exact: Nat2Z.is_nonneg|exact: Nat2Z.is_nonneg].
by congr Z.testbit; slia.
Qed.
Lemma ib_mask x m k : to_Z x = Z.ones (Z.of_nat m) -> ib x k = (k < m).
Proof.
move=> E; rewrite /ib E; case: ltnP => h.
  by rewrite Z.ones_spec_low //; move: h; clear; slia.
by rewrite Z.ones_spec_high //; move: h; clear; slia.
Qed.
Lemma ib_mask32 k : ib mask32 k = (k < 32).
Proof. exact: ib_mask. Qed.
Lemma ib_mask8 k : ib mask8 k = (k < 8).
Proof. exact: ib_mask. Qed.

Definition short (m : nat) (x : int) : Prop := forall k, m <= k -> ib x k = false.

(** * Lanes *)
Definition lb (a : lane) (z : nat) : bool := if z < 32 then ib a.2 z else ib a.1 (z - 32).
Definition okl (a : lane) : Prop := short 32 a.1 /\ short 32 a.2.

Lemma short_xor m x y : short m x -> short m y -> short m (PrimInt63.lxor x y).
Proof. by move=> hx hy k h; rewrite ib_xor hx // hy. Qed.
Lemma wxorP a b : okl a -> okl b -> okl (wxor a b).
Proof. by case: a b => [ah al] [bh bl] [? ?] [? ?]; split; apply: short_xor. Qed.
Lemma wxorE a b z : lb (wxor a b) z = lb a z (+) lb b z.
Proof. by case: a b => [ah al] [bh bl]; rewrite /lb /=; case: ifP => _; rewrite ib_xor. Qed.
Lemma wchiP a b c : okl a -> okl b -> okl c -> okl (wchi a b c).
Proof.
case: a b c => [ah al] [bh bl] [ch cl] [? ?] [? ?] [h1 h2]; split; apply: short_xor => // k hk.
  by rewrite ib_and h1 // andbF.
by rewrite ib_and h2 // andbF.
Qed.
Lemma wchiE a b c z : z < 64 -> lb (wchi a b c) z = lb a z (+) (~~ lb b z && lb c z).
Proof.
case: a b c => [ah al] [bh bl] [ch cl] hz; rewrite /lb /=; case: ifP => h.
  by rewrite ib_xor ib_and ib_xor ib_mask32 h addbT.
rewrite ib_xor ib_and ib_xor ib_mask32.
have -> : z - 32 < 32 by move: hz; clear; slia.
by rewrite addbT.
Qed.

Lemma wrolP n a : okl (wrol n a).
Proof. by case: a => h l; split=> k hk; rewrite ib_and ib_mask32 ltnNge hk andbF. Qed.

Lemma half_rol h l n m k : to_Z n = Z.of_nat m -> 0 < m < 32 -> k < 32 -> short 32 h ->
  ib (PrimInt63.land (PrimInt63.lor (PrimInt63.lsl l n) (PrimInt63.lsr h (PrimInt63.sub 32 n))) mask32) k =
  if m <= k then ib l (k - m) else ib h (k + (32 - m)).
Proof.
move=> E /andP [m0 m32] k32 sh; rewrite ib_and ib_mask32 k32 andbT ib_or (ib_shl _ _ E).
have E' : to_Z (PrimInt63.sub 32 n) = Z.of_nat (32 - m).
  rewrite sub_spec E -[to_Z 32]/32%Z -[wB]/9223372036854775808%Z Z.mod_small //; last by move: m32; clear; slia.
  by move: m32 m0; clear; slia.
rewrite (ib_shr _ _ E').
have -> : k < 63 by move: k32; clear; slia.
rewrite andbT; case: leqP => h1 //=.
by rewrite sh ?orbF //; move: m32 h1; clear; slia.
Qed.

Lemma wrolE n m a z : to_Z n = Z.of_nat m -> 0 < m < 32 -> okl a -> z < 64 ->
  lb (wrol n a) z = lb a ((z + (64 - m)) %% 64).
Proof.
case: a => h l E hm [sh sl] hz; rewrite /lb /=; case: (ltnP z 32) => z32.
  rewrite (half_rol _ E) //; case: (leqP m z) => mz.
    have -> : (z + (64 - m)) %% 64 = z - m.
      have -> : z + (64 - m) = (z - m) + 64 by case/andP: hm => m0 m32; move: m32 mz; clear; slia.
      by rewrite modnDr modn_small //; move: hz; clear; slia.
    by have -> : z - m < 32 by move: z32; clear; slia.
  rewrite modn_small; last by case/andP: hm => m0 m32; move: m32 mz; clear; slia.
  have -> : (z + (64 - m) < 32) = false by case/andP: hm => m0 m32; move: m32 mz; clear; slia.
  by congr ib; case/andP: hm => m0 m32; move: m32 mz; clear; slia.
have k32 : z - 32 < 32 by move: hz; clear; slia.
rewrite (half_rol _ E) //; case: (leqP m (z - 32)) => mz.
  have -> : (z + (64 - m)) %% 64 = z - m.
    have -> : z + (64 - m) = (z - m) + 64 by case/andP: hm => m0 m32; move: m32 mz z32; clear; slia.
    by rewrite modnDr modn_small //; move: hz; clear; slia.
  have -> : (z - m < 32) = false by move: mz z32; clear; slia.
  by congr ib; move: z32 mz; clear; slia.
have -> : (z + (64 - m)) %% 64 = z - m.
  have -> : z + (64 - m) = (z - m) + 64 by case/andP: hm => m0 m32; move: m32 mz z32; clear; slia.
  by rewrite modnDr modn_small //; move: hz; clear; slia.
have -> : (z - m < 32) by move: mz z32; clear; slia.
by congr ib; case/andP: hm => m0 m32; move: z32 mz m0 m32; clear; slia.
Qed.

Lemma wswapP a : okl a -> okl (wswap a).
Proof. by case: a => h l [? ?]. Qed.
Lemma wswapE a z : z < 64 -> lb (wswap a) z = lb a ((z + 32) %% 64).
Proof.
case: a => h l hz; rewrite /lb /=; case: (ltnP z 32) => z32.
  rewrite modn_small; last by move: z32; clear; slia.
  have -> : (z + 32 < 32) = false by clear; slia.
  by rewrite addnK.
have -> : z + 32 = (z - 32) + 64 by move: z32; clear; slia.
rewrite modnDr modn_small; last by move: hz; clear; slia.
by have -> : z - 32 < 32 by move: hz; clear; slia.
Qed.
Lemma wrolswapE n m a z : to_Z n = Z.of_nat m -> 0 < m < 32 -> okl a -> z < 64 ->
  lb (wrol n (wswap a)) z = lb a ((z + (64 - (32 + m))) %% 64).
Proof.
move=> E hm ha hz; rewrite (wrolE E) //; last exact: wswapP.
rewrite wswapE ?ltn_mod // modnDml; congr (lb a _).
have -> : z + (64 - m) + 32 = (z + (64 - (32 + m))) + 64.
  by case/andP: hm => _; clear; slia.
by rewrite modnDr.
Qed.

(** * Rounds *)
Definition l0 : lane := (0, 0)%uint63.
Definition reps (s : seq lane) (A : state) : Prop :=
  [/\ size s = 25, forall i, i < 25 -> okl (nth l0 s i) &
      forall x y z, x < 5 -> y < 5 -> z < 64 -> lb (nth l0 s (5 * y + x)) z = A x y z].


Lemma mkseq25 (s : seq lane) : size s = 25 -> s = mkseq (nth l0 s) 25.
Proof. by move=> E; rewrite -E mkseq_nth. Qed.

Lemma ind25 (P : nat -> Prop) : P 0 -> P 1 -> P 2 -> P 3 -> P 4 -> P 5 -> P 6 -> P 7 -> P 8 -> P 9 -> P 10 -> P 11 ->
  P 12 -> P 13 -> P 14 -> P 15 -> P 16 -> P 17 -> P 18 -> P 19 -> P 20 -> P 21 -> P 22 -> P 23 -> P 24 ->
  forall i, i < 25 -> P i.
Proof. by do 25 move=> ?; do 25 (case=> //). Qed.
Lemma ind5 (P : nat -> Prop) : P 0 -> P 1 -> P 2 -> P 3 -> P 4 -> forall i, i < 5 -> P i.
Proof. by move=> ? ? ? ? ? [|[|[|[|[|i]]]]]. Qed.

Ltac okl H := lazymatch goal with
  | |- okl (wxor _ _) => apply wxorP; okl H
  | |- okl (wchi _ _ _) => apply wchiP; okl H
  | |- okl (wrol _ _) => exact (wrolP _ _)
  | |- okl (wswap _) => apply wswapP; okl H
  | |- okl _ => apply: H; exact isT
  end.

Lemma xthetaP s A : reps s A -> reps (xtheta s) (theta A).
Proof.
case=> sz; rewrite (mkseq25 sz); move: (nth l0 s) => f H1 H2.
have {}H1 i : i < 25 -> okl (f i) by move=> h; rewrite -(nth_mkseq l0 f h); apply: H1.
have {}H2 x y z : x < 5 -> y < 5 -> z < 64 -> A x y z = lb (f (5 * y + x)) z.
  move=> hx hy hz; rewrite -H2 // nth_mkseq //.
  by move: hx hy; clear; slia.
rewrite [xtheta _]/=; split.
- by [].
- by apply: ind25; rewrite [nth _ _ _]/=; okl H1.
- move=> x y z hx hy hz; rewrite /theta /parity !H2 ?ltn_mod //.
  have hz' := ltn_pmod (z + 63) (isT : 0 < 64).
  move: x hx y hy; apply: ind5; apply: ind5; rewrite [nth _ _ _]/=.
  all: rewrite !wxorE (wrolE (m := 1)) //; last okl H1.
  all: rewrite !wxorE; reflexivity.
Qed.

Lemma xrhopiP s A : reps s A -> reps (xrhopi s) (pi (rho A)).
Proof.
case=> sz; rewrite (mkseq25 sz); move: (nth l0 s) => f H1 H2.
have {}H1 i : i < 25 -> okl (f i) by move=> h; rewrite -(nth_mkseq l0 f h); apply: H1.
have {}H2 x y z : x < 5 -> y < 5 -> z < 64 -> A x y z = lb (f (5 * y + x)) z.
  move=> hx hy hz; rewrite -H2 // nth_mkseq //.
  by move: hx hy; clear; slia.
rewrite [xrhopi _]/=; split.
- by [].
- by apply: ind25; rewrite [nth _ _ _]/=; okl H1.
- move=> x y z hx hy hz; rewrite /pi /rho H2 ?ltn_mod //.
  move: x hx y hy; apply: ind5; apply: ind5; rewrite [nth _ _ _]/=.
  all: lazymatch goal with
  | |- lb (wrol ?n (wswap (_ ?i))) _ = _ => let m := eval vm_compute in (Z.to_nat (to_Z n)) in
      exact (@wrolswapE n m _ z (erefl _) isT (H1 i isT) hz)
  | |- lb (wrol ?n (_ ?i)) _ = _ => let m := eval vm_compute in (Z.to_nat (to_Z n)) in
      exact (@wrolE n m _ z (erefl _) isT (H1 i isT) hz)
  | _ => rewrite -[offset _ _]/0 subn0 modnDr (modn_small hz); reflexivity
  end.
Qed.

Lemma xchiP s A rc ir : reps s A -> okl rc -> (forall z, z < 64 -> lb rc z = RC ir z) ->
  reps (xchi rc s) (iota_map ir (chi A)).
Proof.
case=> sz; rewrite (mkseq25 sz); move: (nth l0 s) => f H1 H2 orc Hrc.
have {}H1 i : i < 25 -> okl (f i) by move=> h; rewrite -(nth_mkseq l0 f h); apply: H1.
have {}H2 x y z : x < 5 -> y < 5 -> z < 64 -> A x y z = lb (f (5 * y + x)) z.
  move=> hx hy hz; rewrite -H2 // nth_mkseq //.
  by move: hx hy; clear; slia.
rewrite [xchi _ _]/=; split.
- by [].
- by apply: ind25; rewrite [nth _ _ _]/=; first (apply: wxorP => //); okl H1.
- move=> x y z hx hy hz; rewrite /iota_map /chi !H2 ?ltn_mod //.
  move: x hx y hy; apply: ind5; apply: ind5; rewrite [nth _ _ _]/=.
  by rewrite wxorE wchiE // Hrc.
  all: rewrite wchiE //; reflexivity.
Qed.

Lemma short_lt m x : (to_Z x < 2 ^ Z.of_nat m)%Z -> short m x.
Proof.
move=> h k hk; rewrite /ib; have [h0 _] := to_Z_bounded x.
have [->|n0] := Z.eq_dec (to_Z x) 0; first by rewrite Z.bits_0.
apply: Z.bits_above_log2 => //; have hl : (Z.log2 (to_Z x) < Z.of_nat m)%Z by apply/Z.log2_lt_pow2 => //; lia.
by move: hk hl; clear; slia.
Qed.

Definition rc_ok (ir : nat) : bool :=
  let a := nth l0 xrcs ir in
  [&& (to_Z a.1 <? 2 ^ 32)%Z, (to_Z a.2 <? 2 ^ 32)%Z & all (fun z => lb a z == RC ir z) (iota 0 64)].
Lemma rcs_checked : all rc_ok (iota 0 24). Proof. by vm_compute. Qed.

Lemma rc_okP ir : rc_ok ir -> okl (nth l0 xrcs ir) /\ forall z, z < 64 -> lb (nth l0 xrcs ir) z = RC ir z.
Proof.
rewrite /rc_ok; move: (nth l0 xrcs ir) => a /and3P [/Z.ltb_lt h1 /Z.ltb_lt h2 /allP h3].
split; first by split; [exact: (@short_lt 32 _ h1) | exact: (@short_lt 32 _ h2)].
by move=> z hz; apply/eqP; apply: h3; rewrite mem_iota.
Qed.

Lemma xkeccakP s A : reps s A -> reps (xkeccak s) (keccak_p A).
Proof.
rewrite /xkeccak /keccak_p; have -> : xrcs = [seq nth l0 xrcs ir | ir <- iota 0 24] by rewrite -[RHS](mkseq_nth l0 xrcs).
have := rcs_checked.
elim: (iota 0 24) s A => [|ir l IH] s A; first by [].
rewrite [all _ _]/= => /andP [hir hl] H; rewrite [map _ _]/=.
have [h1 h2] := rc_okP hir.
exact: IH hl (xchiP (xrhopiP (xthetaP H)) h1 h2).
Qed.

(** * Bytes *)
Definition rb (b : int) (n : N) : Prop := to_Z b = Z.of_N n /\ (n < 256)%num.

Lemma rb_ib b n k : rb b n -> ib b k = N.testbit n (N.of_nat k).
Proof. by case=> E _; rewrite /ib E -nat_N_Z Z.testbit_of_N. Qed.
Lemma rb_short b n : rb b n -> short 8 b.
Proof. by case=> E h; apply: short_lt; rewrite E -[(2 ^ _)%Z]/256%Z; lia. Qed.

Definition z0 : int := 0%uint63.
Lemma packE a b c d k : short 8 a -> short 8 b -> short 8 c -> short 8 d -> k < 32 ->
  ib (pack a b c d) k = ib (nth z0 [:: a; b; c; d] (k %/ 8)) (k %% 8).
Proof.
move=> sa sb sc sd k32; rewrite /pack !ib_or (@ib_shl _ 8 8) // (@ib_shl _ 16 16) // (@ib_shl _ 24 24) //.
have -> : k < 63 by move: k32; clear; slia.
rewrite !andbT.
have E := divn_eq k 8; have r8 := ltn_pmod k (isT : 0 < 8).
have d4 : k %/ 8 < 4 by rewrite ltn_divLR.
move: (k %/ 8) (k %% 8) E r8 d4 => [|[|[|[|i]]]] r -> r8 // _; rewrite [nth _ _ _]/=.
- rewrite mul0n add0n; have -> : (8 <= r) = false by move: r8; clear; slia.
  have -> : (16 <= r) = false by move: r8; clear; slia.
  have -> : (24 <= r) = false by move: r8; clear; slia.
  by rewrite !orbF.
- have -> : 1 * 8 + r - 8 = r by clear; slia.
  have -> : 8 <= 1 * 8 + r by clear; slia.
  have -> : (16 <= 1 * 8 + r) = false by move: r8; clear; slia.
  have -> : (24 <= 1 * 8 + r) = false by move: r8; clear; slia.
  by rewrite sa ?orbF //; clear; slia.
- have -> : 2 * 8 + r - 16 = r by clear; slia.
  have -> : 16 <= 2 * 8 + r by clear; slia.
  have -> : (24 <= 2 * 8 + r) = false by move: r8; clear; slia.
  by rewrite sa ?sb ?andbF ?orbF //; clear; slia.
- have -> : 3 * 8 + r - 24 = r by clear; slia.
  have -> : 24 <= 3 * 8 + r by clear; slia.
  by rewrite sa ?sb ?sc ?andbF ?orbF //; clear; slia.
Qed.
Lemma packP a b c d : short 8 a -> short 8 b -> short 8 c -> short 8 d -> short 32 (pack a b c d).
Proof.
move=> sa sb sc sd k hk; rewrite /pack !ib_or (@ib_shl _ 8 8) // (@ib_shl _ 16 16) // (@ib_shl _ 24 24) //.
by rewrite sa ?sb ?sc ?sd ?andbF //; move: hk; clear; slia.
Qed.

(** Lane i of a byte string. *)
Lemma size_lanes_of n s : size s = 8 * n -> size (lanes_of s) = n.
Proof.
elim: n s => [|n IH] s E; first by case: s E.
have [a [b [c [d [e [f [g [h [s' [-> E']]]]]]]]]] : exists a b c d e f g h s', s = [:: a, b, c, d, e, f, g, h & s'] /\ size s' = 8 * n.
  move: E; rewrite mulnS; do 8 (case: s => // ? s); move=> /= -[E].
  by do 9 eexists; split; [reflexivity|].
by rewrite [size _]/= IH.
Qed.

Lemma lanes_ofP n s i : size s = 8 * n -> (forall k, short 8 (nth z0 s k)) -> i < n ->
  okl (nth l0 (lanes_of s) i) /\
  forall z, z < 64 -> lb (nth l0 (lanes_of s) i) z = ib (nth z0 s (8 * i + z %/ 8)) (z %% 8).
Proof.
elim: n s i => [|n IH] s i E H //.
have [a [b [c [d [e [f [g [h [s' [Es E']]]]]]]]]] : exists a b c d e f g h s', s = [:: a, b, c, d, e, f, g, h & s'] /\ size s' = 8 * n.
  move: E; rewrite mulnS; clear H; do 8 (case: s => // ? s); move=> /= -[E].
  by do 9 eexists; split; [reflexivity|].
subst s; case: i => [|i] hi; last first.
  have [|h1 h2] := IH s' i E' _ hi; first by move=> k; exact: (H (8 + k)).
  split; first exact: h1.
  by move=> z hz; rewrite mulnS -addnA; exact: (h2 z hz).
have s0 := H 0; have s1 := H 1; have s2 := H 2; have s3 := H 3; have s4 := H 4; have s5 := H 5; have s6 := H 6; have s7 := H 7.
split; first by split; apply: packP.
move=> z hz; rewrite muln0 add0n -[nth l0 _ _]/(pack e f g h, pack a b c d) /lb [fst _]/= [snd _]/=.
case: ltnP => z32.
  rewrite (packE s0 s1 s2 s3 z32); have : z %/ 8 < 4 by rewrite ltn_divLR.
  by move: (z %/ 8) => [|[|[|[|i]]]] hi4; [reflexivity|reflexivity|reflexivity|reflexivity|discriminate hi4].
have z32' : z - 32 < 32 by move: z32 hz; clear; slia.
rewrite (packE s4 s5 s6 s7 z32').
have E1 : z = 4 * 8 + (z - 32) by rewrite subnKC.
have -> : z %% 8 = (z - 32) %% 8 by rewrite [in LHS]E1 modnMDl.
have -> : z %/ 8 = 4 + (z - 32) %/ 8 by rewrite [in LHS]E1 divnMDl.
have : (z - 32) %/ 8 < 4 by rewrite ltn_divLR //; move: z32 hz; clear; slia.
by move: ((z - 32) %/ 8) => [|[|[|[|i]]]] hi4; [reflexivity|reflexivity|reflexivity|reflexivity|discriminate hi4].
Qed.

Lemma size_xbytes_of s : size (xbytes_of s) = 8 * size s.
Proof.
elim: s => // -[h l] s IH; rewrite -[xbytes_of _]/(unpack l ++ (unpack h ++ xbytes_of s)) size_cat size_cat IH.
by rewrite [size (_ :: _)]/= mulnS.
Qed.

Lemma unpackE a j k : j < 4 -> k < 8 -> ib (nth z0 (unpack a) j) k = ib a (8 * j + k).
Proof.
move=> j4 k8; move: j j4; case=> [|[|[|[|j]]]] hj; rewrite [nth _ _ _]/=.
- by rewrite ib_and ib_mask8 k8 andbT; reflexivity.
- by rewrite ib_and ib_mask8 k8 andbT (@ib_shr _ 8 8) // addnC; reflexivity.
- by rewrite ib_and ib_mask8 k8 andbT (@ib_shr _ 16 16) // addnC; reflexivity.
- by rewrite ib_and ib_mask8 k8 andbT (@ib_shr _ 24 24) // addnC; reflexivity.
- discriminate hj.
Qed.
Lemma unpackP a j : short 8 (nth z0 (unpack a) j).
Proof.
move=> k hk; have h8 : (k < 8) = false by apply/negbTE; rewrite -leqNgt.
case: j => [|[|[|[|j]]]]; rewrite [nth _ _ _]/=; try by rewrite ib_and ib_mask8 h8 andbF.
by rewrite nth_nil; exact: Z.bits_0.
Qed.

Lemma xbytes_ofP s i j : i < size s -> j < 8 ->
  short 8 (nth z0 (xbytes_of s) (8 * i + j)) /\
  forall k, k < 8 -> ib (nth z0 (xbytes_of s) (8 * i + j)) k = lb (nth l0 s i) (8 * j + k).
Proof.
elim: s i => [|[h l] s IH] i // hi hj; case: i hi => [|i] hi; last first.
  have -> : nth z0 (xbytes_of ((h, l) :: s)) (8 * i.+1 + j) = nth z0 (xbytes_of s) (8 * i + j).
    by rewrite mulnS -addnA.
  exact: IH.
rewrite muln0 add0n -[xbytes_of _]/(unpack l ++ (unpack h ++ xbytes_of s)) nth_cat -[size (unpack _)]/4.
rewrite /lb -[nth l0 _ 0]/(h, l).
have [j4|j4] := ltnP j 4.
  split; first exact: unpackP.
  move=> k hk; rewrite unpackE //; have -> // : 8 * j + k < 32 by move: j4 hk; clear; slia.
rewrite nth_cat -[size (unpack _)]/4; have -> : j - 4 < 4 by move: j4 hj; clear; slia.
split; first exact: unpackP.
move=> k hk; rewrite unpackE //; last by move: j4 hj; clear; slia.
have -> : (8 * j + k < 32) = false by move: j4; clear; slia.
by congr ib; move: j4; clear; slia.
Qed.

Lemma bits_fold (f : nat -> bool) i n m :
  N.testbit (foldr (fun j acc => N.b2n (f j) + 2 * acc)%num 0%num (iota i n)) (N.of_nat m) = (m < n) && f (i + m).
Proof.
elim: n i m => [|n IH] i m; first exact: N.bits_0.
rewrite [iota _ _]/= [foldr _ _ _]/=; case: m => [|m].
  by rewrite addn0 N.add_comm N.testbit_0_r.
rewrite Nat2N.inj_succ N.add_comm N.testbit_succ_r IH ltnS; by rewrite addSnnS.
Qed.
Lemma fold_lt (f : nat -> bool) i n :
  (foldr (fun j acc => N.b2n (f j) + 2 * acc) 0 (iota i n) < 2 ^ N.of_nat n)%num.
Proof.
elim: n i => [|n IH] i //; have := IH i.+1; rewrite Nat2N.inj_succ N.pow_succ_r' -[iota i _]/(i :: iota i.+1 n).
set F := fun j acc => _; rewrite -[foldr F _ (_ :: _)]/(N.b2n (f i) + 2 * foldr F 0 (iota i.+1 n))%num.
by move: (foldr F _ _) (2 ^ _)%num => a b; clear; case: (f i); rewrite /N.b2n; lia.
Qed.

Lemma rb_bits b n : (n < 256)%num -> short 8 b -> (forall k, k < 8 -> ib b k = N.testbit n (N.of_nat k)) -> rb b n.
Proof.
move=> h8 sb H; split=> //; apply: Z.bits_inj' => k hk.
rewrite -(Z2Nat.id k hk); have [l|l] := ltnP (Z.to_nat k) 8.
  by rewrite -[LHS]/(ib b _) H // -nat_N_Z Z.testbit_of_N.
rewrite -[LHS]/(ib b _) sb // -nat_N_Z Z.testbit_of_N; symmetry.
have [->|n0] := N.eq_dec n 0; first by rewrite N.bits_0.
apply: N.bits_above_log2; have : (N.log2 n < 8)%num by apply/N.log2_lt_pow2 => //; lia.
by move: l; clear; slia.
Qed.

(** Lists of bytes *)
Definition rbs (s : seq int) (t : bytes) : Prop :=
  size s = size t /\ forall i, rb (nth z0 s i) (nth 0%num t i).

Theorem xkeccak_fP s t : size t = 200 -> rbs s t -> rbs (xkeccak_f s) (keccak_f t).
Proof.
move=> Et [Es H]; rewrite Et in Es.
have Hs k : short 8 (nth z0 s k) by apply: rb_short (H k).
have R : reps (lanes_of s) (bits_of t).
  have E25 : size s = 8 * 25 by rewrite Es.
  split; first exact: (size_lanes_of E25).
    by move=> i hi; have [] := lanes_ofP E25 Hs hi.
  move=> x y z hx hy hz; have hi : 5 * y + x < 25 by move: hx hy; clear; slia.
  have [_ ->//] := lanes_ofP E25 Hs hi.
  by rewrite /bits_of (rb_ib _ (H _)).
have [Sz _ HB] := xkeccakP R.
rewrite /rbs /xkeccak_f /keccak_f; move: (xkeccak _) (keccak_p _) Sz HB => l A Sz HB {R Hs H Es Et}.
rewrite size_xbytes_of size_mkseq Sz; split=> // i.
have [hi|hi] := ltnP i 200; last first.
  rewrite !nth_default ?size_mkseq ?size_xbytes_of ?Sz //.
rewrite nth_mkseq //.
have hd : i %/ 8 < size l by rewrite Sz ltn_divLR.
have hm := ltn_pmod i (isT : 0 < 8).
have [h1 h2] := xbytes_ofP hd hm.
have Ei : 8 * (i %/ 8) + i %% 8 = i by rewrite mulnC -divn_eq.
rewrite Ei in h1 h2.
apply: rb_bits => //; first exact: (@fold_lt (fun j => A _ _ (8 * (i %% 8) + j)) 0 8).
move=> k hk; rewrite h2 // /byte_of (bits_fold (fun j => A _ _ (8 * (i %% 8) + j))) hk add0n.
rewrite -HB ?ltn_pmod //.
- by congr (lb (nth _ _ _) _); rewrite mulnC -divn_eq.
- by rewrite ltn_divLR //; move: hd; rewrite Sz.
- by move: hm hk; clear; slia.
Qed.
