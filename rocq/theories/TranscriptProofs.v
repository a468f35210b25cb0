(** What the transcript binds, and the stream of round constants. *)
From Coq Require Import ZArith NArith Lia String.
From mathcomp Require Import all_ssreflect all_algebra.
From Verif Require Import Base Matrix MatrixProofs Params Bytes PrimeField Alpha AlphaProofs Transcript.
Set Implicit Arguments.
Unset Strict Implicit.
Unset Printing Implicit Defensive.
Import GRing.Theory.
Delimit Scope Z_scope with Z.

(** The transcript that just records the messages. *)
Definition recorder : merlin.
Proof.
refine (@Merlin (seq (bytes * bytes)) (fun l => [::]) (fun l m s => rcons s (l, m))
  (fun l n s => (nseq n 0%num, s)) _).
abstract (by move=> l n s; rewrite size_nseq /is_bytes; split=> //; apply/allP => x /nseqP [->]).
Defined.

Definition messages L (i : input L) (r : rounds) (a : alpha) : seq (bytes * bytes) :=
  @domain_sep L recorder i r a [::].

(** Any transcript absorbs exactly these messages. *)
Lemma domain_sep_messages L (Me : merlin) (i : input L) r a (s : tr_state Me) :
  domain_sep i r a s = foldl (fun s lm => tr_append lm.1 lm.2 s) s (messages i r a).
Proof. by []. Qed.

Lemma messagesE L (i : input L) r a : messages i r a =
  [:: (str "dom-sep", str "poseidon-paramgen");
      (str "t", le_bytes 8 (N.of_nat (in_t i)));
      (str "M", le_bytes 8 (in_M i));
      (str "p", le_bytes (8 * in_p_limbs i) (Z.to_N (in_p i)));
      (str "r_F", [:: N.modulo (N.of_nat (r_F r)) 256]);
      (str "r_P", [:: N.modulo (N.of_nat (r_P r)) 256]);
      (str "alpha", alpha_to_bytes_le a)].
Proof. by []. Qed.

Definition u64 (n : N) : Prop := (n < 2 ^ 64)%num.
(** Inputs that fit their Rust types. *)
Definition typed_input L (i : input L) : Prop :=
  [/\ u64 (N.of_nat (in_t i)), u64 (in_M i) & (0 <= in_p i < 2 ^ (64 * Z.of_nat (in_p_limbs i)))%Z].

Lemma pow256_8 k : (256 ^ N.of_nat (8 * k) = 2 ^ (64 * N.of_nat k))%num.
Proof.
rewrite -[256%num]/(2 ^ 8)%num -N.pow_mul_r; congr (2 ^ _)%num.
by rewrite Nat2N.inj_mul; lia.
Qed.

Lemma mod256_nat a b : (N.modulo (N.of_nat a) 256 = N.modulo (N.of_nat b) 256)%num <->
  a = b %[mod 256].
Proof.
have E : forall n, N.modulo (N.of_nat n) 256 = N.of_nat (n %% 256).
  move=> n; rewrite {1}(divn_eq n 256) Nat2N.inj_add Nat2N.inj_mul N.add_comm N.mod_add //.
  by apply: N.mod_small; have /ltP := ltn_pmod n (isT : (0 < 256)%N); lia.
rewrite !E; split=> [/Nat2N.inj //|->//].
Qed.

(** Two generator calls feed the same messages exactly when they agree on t, M,
    p, the byte encoding of alpha, and the round numbers modulo 256. *)
Lemma messages_eq L (i j : input L) r r' a a' : typed_input i -> typed_input j ->
  messages i r a = messages j r' a' <->
  [/\ in_t i = in_t j, in_M i = in_M j, in_p i = in_p j /\ in_p_limbs i = in_p_limbs j,
      r_F r = r_F r' %[mod 256] /\ r_P r = r_P r' %[mod 256] &
      alpha_to_bytes_le a = alpha_to_bytes_le a'].
Proof.
case=> ti mi pi [tj mj pj]; rewrite !messagesE; split; last first.
  case=> -> -> [-> ->] [/mod256_nat -> /mod256_nat ->] -> //.
move=> E.
have [] : [/\ le_bytes 8 (N.of_nat (in_t i)) = le_bytes 8 (N.of_nat (in_t j)),
  le_bytes 8 (in_M i) = le_bytes 8 (in_M j),
  le_bytes (8 * in_p_limbs i) (Z.to_N (in_p i)) = le_bytes (8 * in_p_limbs j) (Z.to_N (in_p j)),
  N.modulo (N.of_nat (r_F r)) 256 = N.modulo (N.of_nat (r_F r')) 256 /\
  N.modulo (N.of_nat (r_P r)) 256 = N.modulo (N.of_nat (r_P r')) 256 &
  alpha_to_bytes_le a = alpha_to_bytes_le a'].
  pose get k (l : seq (bytes * bytes)) := (nth ([::], [::]) l k).2.
  have e1 := congr1 (get 1%N) E; have e2 := congr1 (get 2) E; have e3 := congr1 (get 3) E.
  have e4 := congr1 (get 4) E; have e5 := congr1 (get 5) E; have e6 := congr1 (get 6) E.
  by rewrite /get /= in e1 e2 e3 e4 e5 e6; case: e4 e5 => e4 [e5].
move=> e1 e2 e3 [e4 e5] e6.
have lim : in_p_limbs i = in_p_limbs j.
  by have /eqP := congr1 size e3; rewrite !size_le_bytes eqn_pmul2l // => /eqP.
split=> //.
- by apply: Nat2N.inj; apply: le_bytes_inj e1.
- exact: le_bytes_inj e2.
- split=> //; move: e3; rewrite lim => /le_bytes_inj h.
  apply: Z2N.inj; [lia | lia | apply: h];
    rewrite pow256_8; apply/N2Z.inj_lt; rewrite N2Z.inj_pow Z2N.id ?N2Z.inj_mul ?nat_N_Z;
    [rewrite -lim; lia | lia | lia | lia].
- by split; apply/mod256_nat.
Qed.

(** * The stream *)
Section Stream.
Variables (L : Type) (PF : prime_field) (Me : merlin).
Local Notation state := (tr_state Me).

Lemma round_constants_cat m n (s : state) :
  @round_constants PF Me (m + n) s =
  let: (a, s) := round_constants PF m s in let: (b, s) := round_constants PF n s in (a ++ b, s).
Proof.
elim: m s => [|m IH] s /=; first by case: round_constants.
case: round_constant => c s1; rewrite IH.
by case: (round_constants PF m s1) => a s2; case: round_constants.
Qed.

Lemma size_round_constants n (s : state) : size (round_constants PF n s).1 = n.
Proof.
elim: n s => //= n IH s; case: round_constant => c s1.
by have := IH s1; case: round_constants => cs s2 /= ->.
Qed.

Lemma round_constants_take m n (s : state) : m <= n ->
  take m (round_constants PF n s).1 = (round_constants PF m s).1.
Proof.
move=> mn; rewrite -(subnKC mn) round_constants_cat.
have := size_round_constants m s; case: (round_constants PF m s) => a s1 /= sa.
by case: round_constants => b s2 /=; rewrite take_size_cat.
Qed.

(** Every constant is a challenge of [size_in_bytes] bytes reduced modulo p. *)
Lemma round_constants_reduced n (s : state) (c : PF) : c \in (round_constants PF n s).1 ->
  exists b, [/\ size b = size_in_bytes PF, is_bytes b &
                pf_to c = (Z.of_N (le_val b) mod pf_p PF)%Z].
Proof.
elim: n s => //= n IH s; rewrite {1}/round_constant.
case E: tr_challenge => [b s1]; case E2: (round_constants PF n s1) => [cs s2] /=.
rewrite inE => /orP [/eqP ->|h]; last by apply: (IH s1); rewrite E2.
exists b; have [] := tr_challenge_size (str "round-constant") (size_in_bytes PF) s.
by rewrite E pf_to_of.
Qed.

Lemma mnew_Ret (F : fieldType) nr nc (els : seq F) : size els = (nr * nc)%N ->
  mnew nr nc (size els) els = Ret (Rmat nr nc els).
Proof. by move=> h; rewrite /mnew h !eqxx. Qed.

Lemma v1_arcE (i : input L) r a : exists els,
  [/\ v1_generate_arc PF Me i r a = Ret (Rmat (r_P r + r_F r) (in_t i) els),
      size els = ((r_P r + r_F r) * in_t i)%N &
      els = (round_constants PF ((r_P r + r_F r) * in_t i)
               (domain_sep i r a (tr_new Me (str "round-constants")))).1].
Proof.
rewrite /v1_generate_arc /rounds_total.
have := size_round_constants ((r_P r + r_F r) * in_t i) (domain_sep i r a (tr_new Me (str "round-constants"))).
by case: round_constants => els s /= sz; exists els; rewrite mnew_Ret.
Qed.

Lemma v2_arcE (i : input L) r a : exists els,
  [/\ v2_generate_arc PF Me i r a = Ret (Rmat (r_F r * in_t i + r_P r) 1 els),
      size els = (r_F r * in_t i + r_P r)%N &
      els = (round_constants PF (r_F r * in_t i + r_P r)
               (domain_sep i r a (tr_new Me (str "round-constants")))).1].
Proof.
rewrite /v2_generate_arc.
have := size_round_constants (r_F r * in_t i + r_P r) (domain_sep i r a (tr_new Me (str "round-constants"))).
by case: round_constants => els s /= sz; exists els; rewrite mnew_Ret ?muln1.
Qed.

Lemma v2_prefix_v1 (i : input L) r a m1 m2 : 0 < in_t i ->
  v1_generate_arc PF Me i r a = Ret m1 -> v2_generate_arc PF Me i r a = Ret m2 ->
  elements m2 = take (r_F r * in_t i + r_P r) (elements m1).
Proof.
have [e1 [-> s1 E1]] := v1_arcE i r a; have [e2 [-> s2 E2]] := v2_arcE i r a.
move=> t0 [<-] [<-] /=; rewrite E1 E2 round_constants_take //.
by rewrite addnC mulnDl leq_add2r leq_pmulr.
Qed.
End Stream.

(** * Bias of the reduction *)
Section Bias.
Variable PF : prime_field.
Local Notation p := (pf_p PF).
Local Notation N := (2 ^ (8 * Z.of_nat (size_in_bytes PF)))%Z.

(** At least 128 bits more than the modulus are drawn. *)
Lemma sampled_bits : (modulus_bits PF + 128 <= 8 * size_in_bytes PF)%N.
Proof.
rewrite /size_in_bytes; set b := modulus_bits PF.
have := divn_eq (b + 135) 8; have := ltn_pmod (b + 135) (isT : (0 < 8)%N).
rewrite mulnC; move: ((b + 135) %/ 8)%N ((b + 135) %% 8)%N => k m /ltP h1 h2.
apply/leP; move: h2; rewrite -!plusE -!multE => h2; lia.
Qed.

(** The byte strings reduced to [r] number N/p, rounded down or up, and N/p is
    at least 2^128: each residue has probability 1/p up to a relative error
    of 2^-128. *)
Lemma sampling_bias (r : Z) : (0 <= r < p)%Z -> exists n,
  [/\ forall x, (0 <= x < N /\ x mod p = r)%Z <-> exists j, (0 <= j < n)%Z /\ x = (r + p * j)%Z,
      (n = N / p \/ n = N / p + 1)%Z & (2 ^ 128 <= N / p)%Z].
Proof.
move=> hr; have p1 := pf_p_gt1 PF.
have hN : (p * 2 ^ 128 < N)%Z.
  have [_ hp] := Z.log2_spec p ltac:(lia).
  have hb : (Z.succ (Z.log2 p) + 128 <= 8 * Z.of_nat (size_in_bytes PF))%Z.
    have /leP := sampled_bits; rewrite /modulus_bits -!plusE -!multE.
    have := Z.log2_nonneg p; lia.
  have : (2 ^ (Z.succ (Z.log2 p) + 128) <= N)%Z by apply: Z.pow_le_mono_r; lia.
  rewrite Z.pow_add_r; [nia | have := Z.log2_nonneg p; lia | lia].
pose n := ((N - 1 - r) / p + 1)%Z.
have dN := Z.div_mod N p ltac:(lia); have mN := Z.mod_pos_bound N p ltac:(lia).
have dn := Z.div_mod (N - 1 - r) p ltac:(lia); have mn := Z.mod_pos_bound (N - 1 - r) p ltac:(lia).
exists n; split.
- move=> x; split.
  + case=> hx e; exists (x / p)%Z; have dx := Z.div_mod x p ltac:(lia).
    split; last by lia.
    split; first by apply: Z.div_pos; lia.
    rewrite /n; have : (x / p <= (N - 1 - r) / p)%Z; last by lia.
    apply: Z.div_le_lower_bound; lia.
  + case=> j [hj ->]; split; last by rewrite Z.mul_comm Z.mod_add ?Z.mod_small; lia.
    rewrite /n in hj; nia.
- rewrite /n; move: dN mN dn mn; move: (N / p)%Z (N mod p)%Z ((N - 1 - r) / p)%Z ((N - 1 - r) mod p)%Z.
  move: N => M a b c d; nia.
- by apply: Z.div_le_lower_bound; lia.
Qed.
End Bias.
