(** SHA-256 from FIPS 180-4 (Python's [hashlib.sha256], external), and
    [generate_round_constant] of /repo/vendor/generate_mds.sage (72-86) for the field of the
    project.  Words are [N] below 2^32, messages lists of bytes. *)
From Coq Require Import NArith ZArith Ascii String Decimal DecimalString DecimalNat.
From mathcomp Require Import all_ssreflect.
From Verif Require Import Fq.
Set Implicit Arguments.
Unset Strict Implicit.
Unset Printing Implicit Defensive.
Delimit Scope N_scope with num.

(** * FIPS 180-4 *)
(** Addition modulo 2^32 (3.2) *)
Definition mod32 (x : N) : N := N.land x (N.ones 32).
Definition add32 (x y : N) : N := mod32 (x + y).
Definition rotr (n x : N) : N := N.lor (N.shiftr x n) (mod32 (N.shiftl x (32 - n))).
(** 4.1.2 *)
Definition Ch (x y z : N) : N := N.lxor (N.land x y) (N.ldiff z x).
Definition Maj (x y z : N) : N := N.lxor (N.lxor (N.land x y) (N.land x z)) (N.land y z).
Definition Sigma0 (x : N) : N := N.lxor (N.lxor (rotr 2 x) (rotr 13 x)) (rotr 22 x).
Definition Sigma1 (x : N) : N := N.lxor (N.lxor (rotr 6 x) (rotr 11 x)) (rotr 25 x).
Definition sigma0 (x : N) : N := N.lxor (N.lxor (rotr 7 x) (rotr 18 x)) (N.shiftr x 3).
Definition sigma1 (x : N) : N := N.lxor (N.lxor (rotr 17 x) (rotr 19 x)) (N.shiftr x 10).
(** 4.2.2 *)
Definition K256 : seq N :=
  [:: 0x428a2f98; 0x71374491; 0xb5c0fbcf; 0xe9b5dba5; 0x3956c25b; 0x59f111f1; 0x923f82a4; 0xab1c5ed5;
      0xd807aa98; 0x12835b01; 0x243185be; 0x550c7dc3; 0x72be5d74; 0x80deb1fe; 0x9bdc06a7; 0xc19bf174;
      0xe49b69c1; 0xefbe4786; 0x0fc19dc6; 0x240ca1cc; 0x2de92c6f; 0x4a7484aa; 0x5cb0a9dc; 0x76f988da;
      0x983e5152; 0xa831c66d; 0xb00327c8; 0xbf597fc7; 0xc6e00bf3; 0xd5a79147; 0x06ca6351; 0x14292967;
      0x27b70a85; 0x2e1b2138; 0x4d2c6dfc; 0x53380d13; 0x650a7354; 0x766a0abb; 0x81c2c92e; 0x92722c85;
      0xa2bfe8a1; 0xa81a664b; 0xc24b8b70; 0xc76c51a3; 0xd192e819; 0xd6990624; 0xf40e3585; 0x106aa070;
      0x19a4c116; 0x1e376c08; 0x2748774c; 0x34b0bcb5; 0x391c0cb3; 0x4ed8aa4a; 0x5b9cca4f; 0x682e6ff3;
      0x748f82ee; 0x78a5636f; 0x84c87814; 0x8cc70208; 0x90befffa; 0xa4506ceb; 0xbef9a3f7; 0xc67178f2]%num.
(** 5.3.3 *)
Definition H0 : seq N :=
  [:: 0x6a09e667; 0xbb67ae85; 0x3c6ef372; 0xa54ff53a; 0x510e527f; 0x9b05688c; 0x1f83d9ab; 0x5be0cd19]%num.

(** 5.1.1 *)
Definition be64 (n : N) : seq N := [seq N.land (N.shiftr n (8 * N.of_nat (7 - i))) 255 | i <- iota 0 8].
Definition pad (msg : seq N) : seq N :=
  let len := size msg in
  msg ++ 128%num :: nseq ((64 - (len + 9) %% 64) %% 64) 0%num ++ be64 (8 * N.of_nat len).
(** 5.2.1 *)
Definition word (b : seq N) : N := foldl (fun w x => 256 * w + x)%num 0%num b.
Definition words (b : seq N) : seq N := [seq word (take 4 (drop (4 * i) b)) | i <- iota 0 16].
Definition blocks (msg : seq N) : seq (seq N) :=
  [seq words (take 64 (drop (64 * i) msg)) | i <- iota 0 (size msg %/ 64)].

(** 6.2.2, step 1; the words so far are listed from the last to the first *)
Definition next_word (w : seq N) : seq N :=
  let W k := nth 0%num w (k - 1) in
  add32 (add32 (sigma1 (W 2)) (W 7)) (add32 (sigma0 (W 15)) (W 16)) :: w.
Definition schedule (m : seq N) : seq N := rev (iter 48 next_word (rev m)).
(** 6.2.2, step 3 *)
Definition round (s : seq N) (kw : N * N) : seq N :=
  match s with
  | [:: a; b; c; d; e; f; g; h] =>
    let T1 := add32 (add32 (add32 (add32 h (Sigma1 e)) (Ch e f g)) kw.1) kw.2 in
    let T2 := add32 (Sigma0 a) (Maj a b c) in
    [:: add32 T1 T2; a; b; c; add32 d T1; e; f; g]
  | _ => s
  end.
(** 6.2.2, steps 2 to 4 *)
Definition compress (h m : seq N) : seq N :=
  [seq add32 p.1 p.2 | p <- zip (foldl round h (zip K256 (schedule m))) h].
(** [int(sha256(msg).hexdigest(), 16)]: the words of the digest, the first the highest *)
Definition sha256 (msg : seq N) : N :=
  foldl (fun v w => N.lor (N.shiftl v 32) w) 0%num (foldl compress H0 (blocks (pad msg))).

(** * generate_mds.sage *)
(** [s.encode("utf8")], for ASCII *)
Definition encode (s : string) : seq N := [seq N_of_ascii c | c <- list_ascii_of_string s].
(** ["%s%d" % (fn_name, idx)] *)
Definition name_index (fn_name : string) (idx : nat) : string :=
  append fn_name (NilZero.string_of_uint (Nat.to_uint idx)).
(** 82-84; a prime field *)
Definition generate_round_constant (fn_name : string) (idx : nat) : Fq :=
  Fq_of_Z (Z.of_N (sha256 (encode (name_index fn_name idx)))).
