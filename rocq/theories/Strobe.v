(** Merlin transcripts: the transcript of merlin 3 (transcript.rs) on top of its
    Strobe-128 (strobe.rs), as published; external to /repo.

    The type of bytes and the permutation are parameters, so that the same text
    can be run on machine integers ([MerlinExec.v]).  The assertions of strobe.rs
    ([cur_flags] unchanged when an operation is continued) hold by construction
    here: an operation is only continued right after it was begun. *)
From Coq Require Import NArith Ascii String.
From mathcomp Require Import all_ssreflect.
From Verif Require Import Bytes Keccak.
From Verif Require Import Transcript.
Set Implicit Arguments.
Unset Strict Implicit.
Unset Printing Implicit Defensive.

(** strobe.rs: STROBE_R and the flags *)
Definition STROBE_R : nat := 166.
Definition FLAG_I : N := 1.
Definition FLAG_A : N := 2.
Definition FLAG_C : N := 4.
Definition FLAG_T : N := 8.
Definition FLAG_M : N := 16.
Definition FLAG_K : N := 32.

Section Strobe.
Variable B : Type.
Variable xor : B -> B -> B.
Variable of_N : N -> B.
Variable perm : seq B -> seq B.

Record strobe := Strobe128 { st : seq B; pos : nat; pos_begin : nat; cur_flags : N }.

Definition xor_at (s : seq B) (i : nat) (b : B) : seq B := set_nth (of_N 0) s i (xor (nth (of_N 0) s i) b).

(** run_f *)
Definition run_f (s : strobe) : strobe :=
  let a := xor_at (st s) (pos s) (of_N (N.of_nat (pos_begin s))) in
  let a := xor_at a (pos s).+1 (of_N 4) in
  let a := xor_at a (STROBE_R + 1) (of_N 128) in
  Strobe128 (perm a) 0 0 (cur_flags s).

(** The end of the loops of absorb and squeeze: one byte further. *)
Definition advance (a : seq B) (s : strobe) : strobe :=
  let s := Strobe128 a (pos s).+1 (pos_begin s) (cur_flags s) in
  if pos s == STROBE_R then run_f s else s.

(** absorb *)
Definition absorb (data : seq B) (s : strobe) : strobe :=
  foldl (fun s b => advance (xor_at (st s) (pos s) b) s) s data.

(** squeeze: reads and clears *)
Fixpoint squeeze (n : nat) (s : strobe) : seq B * strobe :=
  if n is n'.+1 then
    let b := nth (of_N 0) (st s) (pos s) in
    let: (bs, s) := squeeze n' (advance (set_nth (of_N 0) (st s) (pos s) (of_N 0)) s) in
    (b :: bs, s)
  else ([::], s).

(** begin_op with more = false *)
Definition begin_op (flags : N) (s : strobe) : strobe :=
  let old_begin := pos_begin s in
  let s := Strobe128 (st s) (pos s) (pos s).+1 flags in
  let s := absorb [:: of_N (N.of_nat old_begin); of_N flags] s in
  if (N.land flags (FLAG_C + FLAG_K) != 0)%num && (pos s != 0) then run_f s else s.

(** meta_ad(data, false), ad(data, false), prf(n, false) *)
Definition meta_ad (data : seq B) (s : strobe) : strobe := absorb data (begin_op (FLAG_M + FLAG_A) s).
Definition ad (data : seq B) (s : strobe) : strobe := absorb data (begin_op FLAG_A s).
Definition prf (n : nat) (s : strobe) : seq B * strobe := squeeze n (begin_op (FLAG_I + FLAG_A + FLAG_C) s).
(** meta_ad(data, true), right after meta_ad *)
Definition meta_ad_more (data : seq B) (s : strobe) : strobe := absorb data s.

Definition bs (b : bytes) : seq B := map of_N b.

(** Strobe128::new *)
Definition strobe_new (protocol_label : bytes) : strobe :=
  let a := [:: 1; N.of_nat STROBE_R + 2; 1; 0; 1; 96]%num ++ str "STROBEv1.0.2" in
  let a := a ++ nseq (200 - size a) 0%num in
  meta_ad (bs protocol_label) (Strobe128 (perm (bs a)) 0 0 0).

(** transcript.rs: append_message, new, challenge_bytes; lengths are u32. *)
Definition append_message (label message : bytes) (s : strobe) : strobe :=
  let data_len := le_bytes 4 (N.of_nat (size message)) in
  let s := meta_ad_more (bs data_len) (meta_ad (bs label) s) in
  ad (bs message) s.
Definition transcript_new (label : bytes) : strobe :=
  append_message (str "dom-sep") label (strobe_new (str "Merlin v1.0")).
Definition challenge_bytes (label : bytes) (n : nat) (s : strobe) : seq B * strobe :=
  let data_len := le_bytes 4 (N.of_nat n) in
  let s := meta_ad_more (bs data_len) (meta_ad (bs label) s) in
  prf n s.

Lemma size_squeeze n s : size (squeeze n s).1 = n.
Proof. by elim: n s => //= n IH s; have := IH (advance (set_nth (of_N 0) (st s) (pos s) (of_N 0)) s); case: squeeze => bs' s' /= ->. Qed.
End Strobe.

(** ** Transcripts of bytes *)
Definition u8 (n : N) : N := N.modulo n 256.

(** The state of the transcript is an array of [u8]: what is read is below 256. *)
Definition merlin128 : merlin.
Proof.
refine (@Merlin (strobe N) (transcript_new N.lxor u8 keccak_f) (append_message N.lxor u8 keccak_f)
  (fun l n s => let: (b, s) := challenge_bytes N.lxor u8 keccak_f l n s in (map u8 b, s)) _).
abstract (move=> l n s; have := size_squeeze N.lxor u8 keccak_f n
    (begin_op N.lxor u8 keccak_f (FLAG_I + FLAG_A + FLAG_C)
      (meta_ad_more N.lxor u8 keccak_f (bs u8 (le_bytes 4 (N.of_nat n)))
         (meta_ad N.lxor u8 keccak_f (bs u8 l) s)));
  rewrite /challenge_bytes /prf; case: squeeze => b s' /= <-; rewrite size_map; split=> //;
  rewrite /is_bytes all_map; apply/allP => x _ /=; apply/N.ltb_lt; exact: N.mod_lt).
Defined.
