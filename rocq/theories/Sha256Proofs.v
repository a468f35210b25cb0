(** The padding and the range of SHA-256, and the inputs hashed by generate_mds.sage. *)
From Coq Require Import NArith ZArith Lia Ascii String Decimal DecimalString DecimalNat.
From mathcomp Require Import all_ssreflect.
From Verif Require Import Fq Sha256.
Set Implicit Arguments.
Unset Strict Implicit.
Unset Printing Implicit Defensive.
Delimit Scope N_scope with num.

(** * Range *)
Lemma mod32E x : mod32 x = (x mod 2 ^ 32)%num.
Proof. by rewrite /mod32 N.land_ones. Qed.
Lemma mod32_lt x : (mod32 x < 2 ^ 32)%num.
Proof. by rewrite mod32E; apply: N.mod_lt. Qed.

Definition digest (h : seq N) : Prop := size h = 8 /\ forall i, (nth 0%num h i < 2 ^ 32)%num.
Lemma H0_digest : digest H0.
Proof. by split=> // i; do 9 (case: i => [|i] //). Qed.
Lemma size_round s kw : size s = 8 -> size (round s kw) = 8.
Proof. by case: s => [|a [|b [|c [|d [|e [|f [|g [|h [|]]]]]]]]]. Qed.
Lemma size_rounds l s : size s = 8 -> size (foldl round s l) = 8.
Proof. by elim: l s => //= k l IH s h; apply: IH; apply: size_round. Qed.
Lemma compress_digest h m : size h = 8 -> digest (compress h m).
Proof.
move=> s; have e : size (compress h m) = 8 by rewrite size_map size_zip size_rounds // s.
split=> // i; case: (ltnP i 8) => l; last by rewrite nth_default // e.
by rewrite (nth_map (0, 0)%num) ?size_zip ?size_rounds ?s //; apply: mod32_lt.
Qed.
Lemma digests l h : digest h -> digest (foldl compress h l).
Proof. by elim: l h => //= m l IH h [s _]; apply: IH; apply: compress_digest. Qed.

Lemma joinE v w : (w < 2 ^ 32 -> N.lor (N.shiftl v 32) w = v * 2 ^ 32 + w)%num.
Proof.
move=> l; rewrite -N.shiftl_mul_pow2; suff Z : N.land (N.shiftl v 32) w = 0%num by rewrite N.add_nocarry_lxor // N.lxor_lor.
apply: N.bits_inj => n; rewrite N.land_spec N.bits_0.
case: (N.lt_ge_cases n 32) => h; first by rewrite N.shiftl_spec_low.
rewrite [N.testbit w n](_ : _ = false) ?andbF //.
case: (N.eq_dec w 0) => [->|w0]; first exact: N.bits_0.
apply: N.bits_above_log2; apply: (N.lt_le_trans _ 32); last by [].
by apply/N.log2_lt_pow2; lia.
Qed.

Lemma join_lt h v k : (forall i, (nth 0%num h i < 2 ^ 32)%num) -> (v < 2 ^ (32 * N.of_nat k))%num ->
  (foldl (fun v w => N.lor (N.shiftl v 32) w) v h < 2 ^ (32 * N.of_nat (k + size h)))%num.
Proof.
elim: h v k => [|w h IH] v k b l; first by rewrite addn0.
rewrite [foldl _ _ _]/= -[size (w :: h)]/(size h).+1 addnS -addSn; apply: IH => [i|]; first exact: b i.+1.
rewrite joinE; last exact: b 0.
have -> : (32 * N.of_nat k.+1 = 32 * N.of_nat k + 32)%num by lia.
rewrite N.pow_add_r; have := b 0 => /= lw; move: l lw; move: (2 ^ (32 * _))%num (2 ^ 32)%num => A B lA lB; nia.
Qed.

Theorem sha256_lt msg : (sha256 msg < 2 ^ 256)%num.
Proof.
have [s b] := digests (blocks (pad msg)) H0_digest.
by have := @join_lt _ 0 0 b erefl; rewrite add0n s.
Qed.

(** * Padding *)
Theorem pad_blocks msg : 64 %| size (pad msg).
Proof.
rewrite /pad size_cat /= size_cat size_nseq size_map size_iota.
have -> n k : n + (k + 8).+1 = n + 9 + k by rewrite -addnS -addnA [9 + k]addnC.
rewrite /dvdn; set n := size msg + 9.
rewrite -modnDml modnDmr; have := ltn_mod n 64; rewrite /= => l.
by rewrite subnKC ?modnn // ltnW.
Qed.

Definition bytes_to (b : seq N) : N := foldl (fun w x => 256 * w + x)%num 0%num b.
Lemma be64K n : (n < 2 ^ 64)%num -> bytes_to (be64 n) = n.
Proof.
move=> l; pose b k := N.land (N.shiftr n k) 255.
have -> : bytes_to (be64 n) =
  (256 * (256 * (256 * (256 * (256 * (256 * (256 * b (48 + 8) + b (40 + 8)) + b (32 + 8)) + b (24 + 8)) + b (16 + 8)) + b (8 + 8)) + b (0 + 8)) + b 0)%num.
  reflexivity.
rewrite /b {b}.
have L x : N.land x 255 = (x mod 256)%num by rewrite (N.land_ones x 8).
have S k : (N.shiftr n (k + 8) = N.shiftr n k / 256)%num by rewrite -N.shiftr_shiftr (N.shiftr_div_pow2 _ 8).
rewrite !L (S 48%num) -[48%num]/(40 + 8)%num (S 40%num) -[40%num]/(32 + 8)%num (S 32%num) -[32%num]/(24 + 8)%num (S 24%num).
rewrite -[24%num]/(16 + 8)%num (S 16%num) -[16%num]/(8 + 8)%num (S 8%num) -[8%num]/(0 + 8)%num (S 0%num) N.shiftr_0_r.
have Z : (n / 256 / 256 / 256 / 256 / 256 / 256 / 256 / 256 = 0)%num.
  by rewrite !N.div_div //; apply: N.div_small.
have D x : (256 * (x / 256) + x mod 256 = x)%num by rewrite -N.div_mod.
have := D (n / 256 / 256 / 256 / 256 / 256 / 256 / 256)%num; rewrite Z N.mul_0_r N.add_0_l => ->.
by rewrite !D.
Qed.

Theorem pad_inj a b : (N.of_nat (size a) < 2 ^ 61)%num -> (N.of_nat (size b) < 2 ^ 61)%num -> pad a = pad b -> a = b.
Proof.
move=> la lb E.
have T m : drop (size (pad m) - 8) (pad m) = be64 (8 * N.of_nat (size m)).
  rewrite /pad -cat_cons catA size_cat [size (be64 _)]size_map size_iota addnK; exact: drop_size_cat.
have := T a; rewrite E T => /(congr1 bytes_to); rewrite !be64K.
- move=> e; have s : size a = size b by apply: Nat2N.inj; lia.
  by move: E; rewrite /pad => /eqP; rewrite eqseq_cat // => /andP [/eqP].
- by move: la; move: (N.of_nat _) => n; lia.
- by move: lb; move: (N.of_nat _) => n; lia.
Qed.

(** * The inputs of the constants *)
Lemma encode_inj s s' : encode s = encode s' -> s = s'.
Proof.
rewrite /encode => /inj_map E; rewrite -(string_of_list_ascii_of_string s) E ?string_of_list_ascii_of_string //.
by apply: (can_inj ascii_N_embedding).
Qed.
Lemma decimal_inj i j : NilZero.string_of_uint (Nat.to_uint i) = NilZero.string_of_uint (Nat.to_uint j) -> i = j.
Proof.
have N n : Nat.to_uint n <> Decimal.Nil.
  by move=> h; have := Unsigned.of_to n; rewrite h => e; rewrite -e in h.
move/(congr1 NilZero.uint_of_string); rewrite !NilZero.usu // => -[/(congr1 Nat.of_uint)].
by rewrite !Unsigned.of_to.
Qed.
Lemma decimal_head i : exists c s, NilZero.string_of_uint (Nat.to_uint i) = String c s /\ c <> "M"%char.
Proof.
by case: (Nat.to_uint i) => [|u|u|u|u|u|u|u|u|u|u] /=; eexists; eexists; split; try reflexivity.
Qed.
Definition names : seq string := [:: "Hades"; "HadesMDSx"; "HadesMDSy"]%string.
Theorem inputs_inj f g i j : List.In f names -> List.In g names ->
  encode (name_index f i) = encode (name_index g j) -> f = g /\ i = j.
Proof.
move=> hf hg /encode_inj; rewrite /name_index.
have [c [s [Ei Ec]]] := decimal_head i; have [c' [s' [Ej Ec']]] := decimal_head j.
case: hf => [<-|[<-|[<-|[]]]]; case: hg => [<-|[<-|[<-|[]]]] /= E.
all: try by split=> //; apply: decimal_inj; injection E.
all: try by move: E; rewrite ?Ei ?Ej => -[e]; case: (Ec e).
all: by move: E; rewrite Ej => -[e]; case: Ec'; rewrite e.
Qed.
