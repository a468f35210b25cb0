(** The transcript on machine integers, and its agreement with [merlin128]. *)
From Coq Require Import ZArith NArith Uint63 Ascii String Lia.
From mathcomp Require Import all_ssreflect.
From Verif Require Import Slia Bytes Keccak Strobe KeccakExec.
Set Implicit Arguments.
Unset Strict Implicit.
Unset Printing Implicit Defensive.

Definition byte_int (n : N) : int := of_Z (Z.of_N (u8 n)).

Lemma rb_byte n : rb (byte_int n) (u8 n).
Proof.
have h : (u8 n < 256)%num by exact: N.mod_lt.
split=> //; rewrite /byte_int of_Z_spec; apply: Z.mod_small.
by move: (u8 n) h => m h; split; [exact: N2Z.is_nonneg | apply: (Z.lt_trans _ 256); [lia | by []]].
Qed.

Lemma lt256 n : (forall k, 8 <= k -> N.testbit n (N.of_nat k) = false) -> (n < 256)%num.
Proof.
move=> H; have -> : n = (n mod 2 ^ 8)%num; last exact: N.mod_lt.
apply: N.bits_inj => k; have [h|h] := N.lt_ge_cases k 8; first by rewrite N.mod_pow2_bits_low.
rewrite N.mod_pow2_bits_high // -(N2Nat.id k); apply: H; move: h; clear; slia.
Qed.

Lemma rb_testbit b n k : rb b n -> 8 <= k -> N.testbit n (N.of_nat k) = false.
Proof. by move=> h hk; rewrite -(rb_ib _ h); apply: (rb_short h). Qed.

Lemma rb_xor a n b m : rb a n -> rb b m -> rb (PrimInt63.lxor a b) (N.lxor n m).
Proof.
move=> ha hb; apply: rb_bits.
- by apply: lt256 => k hk; rewrite N.lxor_spec (rb_testbit ha) // (rb_testbit hb).
- exact: short_xor (rb_short ha) (rb_short hb).
- by move=> k _; rewrite ib_xor (rb_ib _ ha) (rb_ib _ hb) N.lxor_spec; case: N.testbit; case: N.testbit.
Qed.

Lemma rbs_set s t i b n : rbs s t -> rb b n -> rbs (set_nth (byte_int 0) s i b) (set_nth (u8 0) t i n).
Proof.
move=> [E H] h; split; first by rewrite !size_set_nth E.
by move=> j; rewrite !(@nth_set_nth _ _ _) /=; case: eqP.
Qed.

Lemma rbs_nil : rbs [::] [::].
Proof. by split=> // i; rewrite !nth_nil; split. Qed.
Lemma rbs_cons b n s t : rb b n -> rbs s t -> rbs (b :: s) (n :: t).
Proof. by move=> h [E H]; split; [rewrite /= E | case=> [|i]; [exact: h | exact: H]]. Qed.
Lemma rbs_uncons b n s t : rbs (b :: s) (n :: t) -> rb b n /\ rbs s t.
Proof. by case=> -[E] H; split; [exact: (H 0) | split=> // i; exact: (H i.+1)]. Qed.
Lemma rbs_bs l : rbs (bs byte_int l) (bs u8 l).
Proof. by elim: l => [|x l IH]; [exact: rbs_nil | apply: rbs_cons IH; exact: rb_byte]. Qed.

Local Notation strobeI := (strobe int).
Local Notation strobeN := (strobe N).
Definition rs (m : nat) (s : strobeI) (t : strobeN) : Prop :=
  [/\ size (st t) = 200, rbs (st s) (st t), pos s = pos t, pos_begin s = pos_begin t &
      cur_flags s = cur_flags t] /\ pos t < m.

Lemma rbs_xor_at s t i b n : rbs s t -> rb b n ->
  rbs (xor_at PrimInt63.lxor byte_int s i b) (xor_at N.lxor u8 t i n).
Proof.
move=> H h; apply: rbs_set => //; apply: rb_xor => //.
by have [_ H2] := H; exact: (H2 i).
Qed.
Lemma size_xor_at (t : bytes) i n : i < 200 -> size t = 200 -> size (xor_at N.lxor u8 t i n) = 200.
Proof. by move=> hi E; rewrite /xor_at size_set_nth E; apply/maxn_idPr. Qed.

Local Notation Irun := (run_f PrimInt63.lxor byte_int xkeccak_f).
Local Notation Nrun := (run_f N.lxor u8 keccak_f).
Lemma run_fP s t : rs 167 s t -> rs 166 (Irun s) (Nrun t).
Proof.
case: s t => [a p pb f] [a' p' pb' f'] [[/= Sz H Ep Epb Ef] hp]; subst.
have h1 : p' < 200 by move: hp; clear; slia.
have h2 : p'.+1 < 200 by move: hp; clear; slia.
split=> //; split=> //.
rewrite [st _]/= [X in rbs _ X]/=; apply: xkeccak_fP; first by do 3 apply: size_xor_at => //.
by do 3 (apply: rbs_xor_at; last exact: rb_byte).
Qed.

Lemma advanceP a a' s t : size a' = 200 -> rbs a a' -> rs 166 s t ->
  rs 166 (advance PrimInt63.lxor byte_int xkeccak_f a s) (advance N.lxor u8 keccak_f a' t).
Proof.
move=> Sa Ha [[Sz H Ep Epb Ef] hp]; rewrite /advance /= Ep.
case: eqP => h; first by apply: run_fP; split.
by split=> //=; rewrite ltn_neqAle; move/eqP: h => -> .
Qed.

Lemma absorbP d d' s t : rbs d d' -> rs 166 s t ->
  rs 166 (absorb PrimInt63.lxor byte_int xkeccak_f d s) (absorb N.lxor u8 keccak_f d' t).
Proof.
rewrite /absorb; elim: d d' s t => [|b d IH] [|n d'] s t; try by case.
move=> /rbs_uncons [hb hd] H; have [[Sz H1 Ep Epb Ef] hp] := H; rewrite [foldl _ s _]/= [foldl _ t _]/=.
apply: (IH d' _ _ hd); apply: advanceP => //; last by rewrite Ep; apply: rbs_xor_at.
by apply: size_xor_at => //; move: hp; clear; slia.
Qed.

Lemma squeezeP n s t : rs 166 s t ->
  let x := squeeze PrimInt63.lxor byte_int xkeccak_f n s in let y := squeeze N.lxor u8 keccak_f n t in
  rbs x.1 y.1 /\ rs 166 x.2 y.2.
Proof.
elim: n s t => [|n IH] s t H; first by split=> //; exact: rbs_nil.
have [[Sz H1 Ep Epb Ef] hp] := H.
rewrite [squeeze _ _ _ n.+1 s]/= [squeeze _ _ _ n.+1 t]/= Ep.
set s1 := advance _ _ _ _ s; set t1 := advance _ _ _ _ t.
have H2 : rs 166 s1 t1.
  apply: advanceP => //; last by apply: rbs_set => //; exact: rb_byte.
  by rewrite size_set_nth Sz; apply/maxn_idPr; move: hp; clear; slia.
have := IH _ _ H2; case: squeeze => b1 s2; case: squeeze => b2 t2 /= [h1 h2]; split=> //.
by apply: rbs_cons => //; have [_ h] := H1; exact: (h (pos t)).
Qed.

Local Notation Ibegin := (begin_op PrimInt63.lxor byte_int xkeccak_f).
Local Notation Nbegin := (begin_op N.lxor u8 keccak_f).
Lemma begin_opP f s t : rs 166 s t -> rs 166 (Ibegin f s) (Nbegin f t).
Proof.
move=> [[Sz H1 Ep Epb Ef] hp]; rewrite /begin_op Ep Epb.
set s1 := absorb _ _ _ _ _; set t1 := absorb _ _ _ _ _.
have H : rs 166 s1 t1.
  by apply: absorbP; [do 2 (apply: rbs_cons; first exact: rb_byte); exact: rbs_nil | split].
have [[S1 H2 E1 E2 E3] hp1] := H.
rewrite E1; case: ifP => // _; apply: run_fP; split=> //; by move: hp1; clear; slia.
Qed.

Lemma meta_adP d s t : rs 166 s t ->
  rs 166 (meta_ad PrimInt63.lxor byte_int xkeccak_f (bs byte_int d) s) (meta_ad N.lxor u8 keccak_f (bs u8 d) t).
Proof. by move=> H; apply: absorbP; [exact: rbs_bs | exact: begin_opP]. Qed.
Lemma meta_ad_moreP d s t : rs 166 s t ->
  rs 166 (meta_ad_more PrimInt63.lxor byte_int xkeccak_f (bs byte_int d) s) (meta_ad_more N.lxor u8 keccak_f (bs u8 d) t).
Proof. by move=> H; apply: absorbP => //; exact: rbs_bs. Qed.
Lemma adP d s t : rs 166 s t ->
  rs 166 (ad PrimInt63.lxor byte_int xkeccak_f (bs byte_int d) s) (ad N.lxor u8 keccak_f (bs u8 d) t).
Proof. by move=> H; apply: absorbP; [exact: rbs_bs | exact: begin_opP]. Qed.

Lemma append_messageP l m s t : rs 166 s t ->
  rs 166 (append_message PrimInt63.lxor byte_int xkeccak_f l m s) (append_message N.lxor u8 keccak_f l m t).
Proof. by move=> H; apply: adP; apply: meta_ad_moreP; apply: meta_adP. Qed.

Lemma start a : size a = 200 ->
  rs 166 (Strobe128 (xkeccak_f (bs byte_int a)) 0 0 0) (Strobe128 (keccak_f (bs u8 a)) 0 0 0).
Proof.
move=> Sa; split; last exact: isT.
split; try exact: erefl.
by apply: xkeccak_fP; [rewrite size_map | exact: rbs_bs].
Qed.
Lemma transcript_newP l :
  rs 166 (transcript_new PrimInt63.lxor byte_int xkeccak_f l) (transcript_new N.lxor u8 keccak_f l).
Proof.
apply: append_messageP; rewrite /strobe_new; apply: meta_adP; apply: start; exact: erefl.
Qed.

Lemma challenge_bytesP l n s t : rs 166 s t ->
  let x := challenge_bytes PrimInt63.lxor byte_int xkeccak_f l n s in
  let y := challenge_bytes N.lxor u8 keccak_f l n t in rbs x.1 y.1 /\ rs 166 x.2 y.2.
Proof. by move=> H; apply: squeezeP; apply: begin_opP; apply: meta_ad_moreP; apply: meta_adP. Qed.
