(** Model of /repo/poseidon-parameters/src/alpha.rs and
    /repo/poseidon-paramgen/src/alpha.rs. *)
From Coq Require Import ZArith NArith.
From mathcomp Require Import all_ssreflect all_algebra.
From Verif Require Import Base Params Bytes PrimeField.
Set Implicit Arguments.
Unset Strict Implicit.
Unset Printing Implicit Defensive.
Local Open Scope rust_scope.
Delimit Scope Z_scope with Z.

(** poseidon-parameters alpha.rs:10-18; [(-1i32).to_le_bytes()] are the bytes of
    2^32 - 1. *)
Definition alpha_to_bytes_le (a : alpha) : bytes :=
  match a with
  | Exponent exp => le_bytes 4 exp
  | Inverse => le_bytes 4 (2 ^ 32 - 1)
  end.

(** poseidon-paramgen alpha.rs:24-34 *)
Definition depth_2 : seq N := [:: 4; 3]%num.
Definition depth_3 : seq N := [:: 8; 6; 5]%num.
Definition depth_4 : seq N := [:: 16; 12; 10; 9; 7]%num.
Definition depth_5 : seq N := [:: 32; 24; 20; 18; 17; 15; 14; 13; 11]%num.
Definition depth_6 : seq N := [:: 64; 48; 40; 36; 34; 33; 30; 28; 27; 26; 25; 23; 22; 21; 19]%num.
Definition depth_7 : seq N :=
  [:: 128; 96; 80; 72; 68; 66; 65; 60; 56; 54; 52; 51; 50; 49; 46; 45; 44; 43; 42; 41; 39; 38;
      37; 35; 31; 29]%num.

(** alpha.rs:36-45 *)
Definition depths_in_order : seq N :=
  (depth_2 ++ depth_3) ++ (depth_4 ++ depth_5) ++ (depth_6 ++ depth_7).

Section Generate.
Variable PF : prime_field.

(** alpha.rs:64-70; [p.into() - one] panics for [p = 0] ([BigUint] underflow),
    [Z.gcd] is [num::integer::gcd]. *)
Definition alpha_coprime_to_p_minus_one (alpha : N) (p : Z) : outcome bool :=
  let one := pf_to (1%R : PF) in
  if (p <? one)%Z then Panic
  else
    let p_minus_one := (p - one)%Z in
    let alpha_bigint := pf_to (pf_of PF (Z.of_N alpha)) in
    let computed_gcd := Z.gcd alpha_bigint p_minus_one in
    Ret (pf_of PF computed_gcd == 1%R).

(** The loop at alpha.rs:51-55 with its early return. *)
Fixpoint find_alpha (p : Z) (cs : seq N) : outcome (option N) :=
  match cs with
  | [::] => Ret None
  | c :: cs' =>
    if negb (c mod 2 =? 0)%num then
      b <- alpha_coprime_to_p_minus_one c p ;;
      if b then Ret (Some c) else find_alpha p cs'
    else find_alpha p cs'
  end.

(** alpha.rs:48-62 *)
Definition alpha_generate (p : Z) (allow_inverse : bool) : outcome alpha :=
  found <- find_alpha p depths_in_order ;;
  match found with
  | Some c => Ret (Exponent c)
  | None => if allow_inverse then Ret Inverse else Panic
  end.
End Generate.
