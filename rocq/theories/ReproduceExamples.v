(** Concrete cases for C37: published test vectors of the permutation and of the
    transcript, run on machine integers and carried over to the models by
    [xkeccak_fP] and [challenge_bytesP]. *)
From Coq Require Import ZArith NArith Uint63 Ascii String.
From mathcomp Require Import all_ssreflect all_algebra.
From Verif Require Import Base Bytes Fq Matrix Params Montgomery PrimeField Alpha Transcript V1 Rounds RoundsSpec RoundsProps.
From Verif Require Import Keccak Strobe KeccakExec MerlinExec MerlinShipped RateChecks Reproduce.
Set Implicit Arguments.
Unset Strict Implicit.
Unset Printing Implicit Defensive.
Delimit Scope Z_scope with Z.

Lemma rbs_val s t : rbs s t -> t = map (fun b => Z.to_N (to_Z b)) s.
Proof.
move=> [E H]; apply: (@eq_from_nth _ 0%num); first by rewrite size_map.
by move=> i hi; rewrite (nth_map z0) ?E //; have [-> _] := H i; rewrite N2Z.id.
Qed.

(** Keccak-f[1600] of the zero state (Keccak team, KeccakF-1600-IntermediateValues). *)
Example keccak_zero : take 16 (keccak_f (nseq 200 0%num)) =
  [:: 231; 221; 225; 64; 121; 143; 37; 241; 138; 71; 192; 51; 249; 204; 213; 132]%num.
Proof.
have H : rbs (nseq 200 z0) (nseq 200 0%num).
  split; first by rewrite !size_nseq.
  by move=> i; rewrite !nth_nseq !if_same; split.
rewrite (rbs_val (xkeccak_fP _ H)); last exact: size_nseq.
by vm_compute.
Qed.

(** merlin's own test "equivalence_simple": 32 bytes of challenge. *)
Example merlin_vector :
  (@tr_challenge merlin128 (str "challenge") 32
    (@tr_append merlin128 (str "some label") (str "some data") (tr_new merlin128 (str "test protocol")))).1 =
  [:: 213; 162; 25; 114; 208; 213; 254; 50; 12; 13; 38; 63; 172; 127; 255; 184;
      20; 90; 166; 64; 175; 110; 155; 202; 23; 124; 3; 199; 239; 207; 6; 21]%num.
Proof.
set t := tr_append _ _ _; have [-> _] := challengeE (str "challenge") 32 t.
have H := append_messageP (str "some label") (str "some data") (transcript_newP (str "test protocol")).
have [h _] := challenge_bytesP (str "challenge") 32 H.
by rewrite (rbs_val h); vm_compute.
Qed.

(** The first round constant of width 2. *)
Example first_constant lm : accurate lm ->
  exists p, [/\ v1_generate Fq_pf merlin128 (log2 lm) (v1_rounds lm) 128 2 q 4 false = Ret p,
                p_rounds p = RoundNumbers 31 8, p_alpha p = Exponent 17 &
                head (0 : Fq) (elements (p_arc p)) =
                from_montgomery_limbs (mkLimbs 6258896775460530561 1267570262938364784 10583705394133388288 4331270346116315)]%R.
Proof.
move=> acc; exists Rate1.RATE_1_PARAMS; split=> //.
by apply: (@reproduced lm false Rate1.RATE_1_PARAMS acc); left.
Qed.
