(** Concrete instances for the properties in [Properties_Paramgen.v]. *)
From Coq Require Import ZArith NArith Lia String.
From mathcomp Require Import all_ssreflect all_algebra.
From Verif Require Import Base Fq Matrix Params Bytes PrimeField Alpha AlphaProofs Transcript TranscriptProofs.
From Verif Require Import Properties_Paramgen.
Import GRing.Theory.
Delimit Scope Z_scope with Z.

(** C31 *)
Example alpha_17_bytes : alpha_to_bytes_le (Exponent 17) = [:: 17; 0; 0; 0]%num.
Proof. by []. Qed.
Example alpha_collision :
  alpha_to_bytes_le (Exponent 4294967295) = [:: 255; 255; 255; 255]%num /\
  alpha_to_bytes_le Inverse = [:: 255; 255; 255; 255]%num.
Proof. by []. Qed.

(** C32: the shipped exponent, and a Fermat prime. *)
Example alpha_of_Fq : alpha_generate Fq_pf q false = Ret (Exponent 17).
Proof. by vm_compute. Qed.
Example alpha_of_257 (pp : prime 257) : alpha_generate (Fp_pf pp) 257 false = Ret (Exponent 3).
Proof. by vm_compute. Qed.
Example Fq_is_big : (128 < pf_p Fq_pf)%Z.
Proof. by []. Qed.

(** C38: legal inputs with different messages, and two round numbers that the
    transcript does not tell apart. *)
Definition input_2 : input unit := InputParameters false 128 3 q 4 tt.
Example input_2_typed : typed_input input_2.
Proof. by split=> //=; rewrite /q; lia. Qed.
Example rounds_indistinguishable :
  messages input_2 (RoundNumbers 31 8) (Exponent 17) = messages input_2 (RoundNumbers 287 264) (Exponent 17).
Proof. by apply/(messages_eq _ _ _ _ input_2_typed input_2_typed). Qed.
Example rounds_distinguished :
  messages input_2 (RoundNumbers 31 8) (Exponent 17) <> messages input_2 (RoundNumbers 32 8) (Exponent 17).
Proof. by move/(messages_eq _ _ _ _ input_2_typed input_2_typed) => [] _ _ _ []. Qed.

(** C39, C48: for Fq, 48 bytes are drawn per constant. *)
Example Fq_sample_size : size_in_bytes Fq_pf = 48.
Proof. by vm_compute. Qed.
