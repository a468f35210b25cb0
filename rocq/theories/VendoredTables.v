(** The test vectors of /repo/vendor/hadeshash/code/test_vectors.txt, and certificates for
    the matrices of their scripts.  Generated by tools/mkvectors.py. *)
From Coq Require Import ZArith.
From mathcomp Require Import all_ssreflect.
From Verif Require Import GrainTables.
Local Open Scope Z_scope.

Record test_vector := TestVector {
  tv_script : vendored;
  tv_input : seq Z;
  tv_output : seq Z;
  (** not in the file: the column [M_hat^-1 * w] of the script's matrix, checked by the proofs *)
  tv_w_hat : seq Z }.

(** Lines 1-5 *)
Definition vector_x5_255_3 : test_vector := TestVector x5_255_3
  [:: 0x0000000000000000000000000000000000000000000000000000000000000000;
    0x0000000000000000000000000000000000000000000000000000000000000001;
    0x0000000000000000000000000000000000000000000000000000000000000002]
  [:: 0x28ce19420fc246a05553ad1e8c98f5c9d67166be2c18e9e4cb4b4e317dd2a78a;
    0x51f3e312c95343a896cfd8945ea82ba956c1118ce9b9859b6ea56637b4b1ddc4;
    0x3b2b69139b235626a0bfb56c9527ae66a7bf486ad8c11c14d1da0c69bbe0f79a]
  [:: 0x5ddff8dfde0a418a64daae5c36e25bbe6f1fffeea6767a6de1eaaa85dc1c6d48;
    0x5096c5da90051d3706370510892d33d7173b8b9112b16d8981b8906b339380fd].

(** Lines 7-11 *)
Definition vector_x5_255_5 : test_vector := TestVector x5_255_5
  [:: 0x0000000000000000000000000000000000000000000000000000000000000000;
    0x0000000000000000000000000000000000000000000000000000000000000001;
    0x0000000000000000000000000000000000000000000000000000000000000002;
    0x0000000000000000000000000000000000000000000000000000000000000003;
    0x0000000000000000000000000000000000000000000000000000000000000004]
  [:: 0x2a918b9c9f9bd7bb509331c81e297b5707f6fc7393dcee1b13901a0b22202e18;
    0x65ebf8671739eeb11fb217f2d5c5bf4a0c3f210e3f3cd3b08b5db75675d797f7;
    0x2cc176fc26bc70737a696a9dfd1b636ce360ee76926d182390cdb7459cf585ce;
    0x4dc4e29d283afd2a491fe6aef122b9a968e74eff05341f3cc23fda1781dcb566;
    0x03ff622da276830b9451b88b85e6184fd6ae15c8ab3ee25a5667be8592cce3b1]
  [:: 0x206dd702f5ddc2bb25608226e8b17e823670b6d84f60e1cac229886cf59fddf9;
    0x57b38008245d92b6449b11d3bf12cee9e90069889e20c88ce83dd74746684928;
    0xfaf00ea43609fb7dcfa66ed1fbbfa4ec30d7bce349219e832d2305c6cc75b89;
    0x426eef1380fb6f02fbe549814344e4d5d763dd56290701723351a39ea9b6671d].

(** Lines 13-17 *)
Definition vector_x5_254_3 : test_vector := TestVector x5_254_3
  [:: 0x0000000000000000000000000000000000000000000000000000000000000000;
    0x0000000000000000000000000000000000000000000000000000000000000001;
    0x0000000000000000000000000000000000000000000000000000000000000002]
  [:: 0x115cc0f5e7d690413df64c6b9662e9cf2a3617f2743245519e19607a4417189a;
    0x0fca49b798923ab0239de1c9e7a4a9a2210312b6a2f616d18b5a87f9b628ae29;
    0x0e7ae82e40091e63cbd4f16a6d16310b3729d4b6e138fcf54110e2867045a30c]
  [:: 0x22643358103aa72b1e6dfcc210763146c5b07f8ceb052ab7d8264edddd22819;
    0x126cf039cc824281e053e88557368c75d1dafa8f6545daaac0574ac0622e75f5].

(** Lines 19-23 *)
Definition vector_x5_254_5 : test_vector := TestVector x5_254_5
  [:: 0x0000000000000000000000000000000000000000000000000000000000000000;
    0x0000000000000000000000000000000000000000000000000000000000000001;
    0x0000000000000000000000000000000000000000000000000000000000000002;
    0x0000000000000000000000000000000000000000000000000000000000000003;
    0x0000000000000000000000000000000000000000000000000000000000000004]
  [:: 0x299c867db6c1fdd79dcefa40e4510b9837e60ebb1ce0663dbaa525df65250465;
    0x1148aaef609aa338b27dafd89bb98862d8bb2b429aceac47d86206154ffe053d;
    0x24febb87fed7462e23f6665ff9a0111f4044c38ee1672c1ac6b0637d34f24907;
    0x0eb08f6d809668a981c186beaf6110060707059576406b248e5d9cf6e78b3d3e;
    0x07748bc6877c9b82c8b98666ee9d0626ec7f5be4205f79ee8528ef1c4a376fc7]
  [:: 0xcf7e9b3a7f948abe312a94049317d953bc01f730d751d162a5bb513e047f86d;
    0x170724ad6036cdfcb2342e188c7705e3622e49a5675e3a57e64657a79e6f537e;
    0x25475a937b089c0b6d686bd4cdc5ebd6560509e74cd2112669f84386abd864de;
    0x2f9fef499b21a3a4a9746e0da482e18268da01629ac099bf586c8a9a84ac9dcc].

Definition test_vectors : seq test_vector := [:: vector_x5_255_3; vector_x5_255_5; vector_x5_254_3; vector_x5_254_5].
