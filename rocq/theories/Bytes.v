(** Little-endian byte strings ([to_le_bytes], [from_le_bytes]).  A byte is an
    [N] below 256. *)
From Coq Require Import ZArith NArith Lia.
From mathcomp Require Import all_ssreflect.
Set Implicit Arguments.
Unset Strict Implicit.
Unset Printing Implicit Defensive.
Delimit Scope Z_scope with Z.

Definition bytes := seq N.

(** The [n] low bytes of [x], least significant first ([uN::to_le_bytes]). *)
Fixpoint le_bytes (n : nat) (x : N) : bytes :=
  if n is n'.+1 then (x mod 256)%num :: le_bytes n' (x / 256)%num else [::].

(** The number a byte string stands for ([uN::from_le_bytes]). *)
Fixpoint le_val (b : bytes) : N :=
  if b is x :: b' then (x + 256 * le_val b')%num else 0%num.

Definition is_bytes (b : bytes) : bool := all (fun x => x <? 256)%num b.

Lemma size_le_bytes n x : size (le_bytes n x) = n.
Proof. by elim: n x => //= n IH x; rewrite IH. Qed.

Lemma le_bytes_bytes n x : is_bytes (le_bytes n x).
Proof.
elim: n x => //= n IH x; rewrite IH andbT; apply/N.ltb_lt; exact: N.mod_lt.
Qed.

Lemma le_bytesK n x : le_val (le_bytes n x) = (x mod 256 ^ N.of_nat n)%num.
Proof.
elim: n x => [|n IH] x; first by rewrite /= N.mod_1_r.
rewrite [le_bytes _ _]/= [le_val _]/= IH Nat2N.inj_succ N.pow_succ_r'.
rewrite N.mod_mul_r //; exact: N.pow_nonzero.
Qed.

Lemma le_bytes_inj n x y : (x < 256 ^ N.of_nat n)%num -> (y < 256 ^ N.of_nat n)%num ->
  le_bytes n x = le_bytes n y -> x = y.
Proof. by move=> hx hy /(congr1 le_val); rewrite !le_bytesK !N.mod_small. Qed.

Lemma le_valK b : is_bytes b -> le_bytes (size b) (le_val b) = b.
Proof.
elim: b => //= x b IH /andP [/N.ltb_lt hx hb].
have -> : ((x + 256 * le_val b) mod 256 = x)%num.
  by rewrite N.mul_comm N.mod_add // N.mod_small.
have -> : ((x + 256 * le_val b) / 256 = le_val b)%num.
  by rewrite N.mul_comm N.div_add // N.div_small.
by rewrite IH.
Qed.

Lemma le_val_cons x b : le_val (x :: b) = (x + 256 * le_val b)%num.
Proof. by []. Qed.

Lemma le_val_lt b : is_bytes b -> (le_val b < 256 ^ N.of_nat (size b))%num.
Proof.
elim: b => [//|x b IH]; rewrite [is_bytes _]/= => /andP [/N.ltb_lt hx /IH hb].
rewrite le_val_cons -[size (x :: b)]/(S (size b)) Nat2N.inj_succ N.pow_succ_r'.
by move: (256 ^ _)%num hb => k hb; lia.
Qed.
