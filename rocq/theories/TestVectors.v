(** The test vectors of /repo/poseidon377/src/hash.rs:82-263 hold in the model.
    The textbook permutation is run on machine integers and transferred. *)
From Coq Require Import ZArith.
From Bignums Require Import BigZ.
From mathcomp Require Import all_ssreflect all_algebra.
From Verif Require Import Base Fq Matrix MatrixSpec MatrixProofs Params Montgomery Permutation Spec.
From Verif Require Import PermutationProofs PoseidonProofs Check CheckSound BigField RateChecks Cauchy Shipped Hash PoseidonProps.
From Verif Require Import Rate1 Rate2 Rate3 Rate4 Rate5 Rate6 Rate7.
Set Implicit Arguments.
Unset Strict Implicit.
Unset Printing Implicit Defensive.
Import GRing.Theory.
Local Open Scope ring_scope.
Delimit Scope Z_scope with Z.

Section Run.
Variables (A : Type) (o : ops A).
Definition vadd (a b : seq A) : seq A := [seq oadd o xy.1 xy.2 | xy <- zip a b].
Definition pow17 (x : A) : A :=
  let x2 := omul o x x in let x4 := omul o x2 x2 in
  let x8 := omul o x4 x4 in omul o (omul o x8 x8) x.
Definition sub_head (s : seq A) : seq A := match s with [::] => [::] | x :: s => pow17 x :: s end.
Definition run_full (M : seq (seq A)) (x c : seq A) := mulv o M (map pow17 (vadd x c)).
Definition run_partial (M : seq (seq A)) (x c : seq A) := mulv o M (sub_head (vadd x c)).
Definition run_textbook (p : params A) (x : seq A) : seq A :=
  let t := p_t p in
  let M := rows t t (elements (p_mds p)) in
  let cs := rows 39 t (elements (p_arc p)) in
  let x := foldl (run_full M) x (take 4 cs) in
  let x := foldl (run_partial M) x (take 31 (drop 4 cs)) in
  foldl (run_full M) x (take 4 (drop 35 cs)).
End Run.

Section Transfer.
Variables (A B : Type) (o : ops A) (o' : ops B) (phi : A -> B).
Hypothesis phi0 : phi (o0 o) = o0 o'.
Hypothesis phi_add : forall a b, phi (oadd o a b) = oadd o' (phi a) (phi b).
Hypothesis phi_mul : forall a b, phi (omul o a b) = omul o' (phi a) (phi b).

Lemma pow17_phi x : phi (pow17 o x) = pow17 o' (phi x).
Proof. by rewrite /pow17 !phi_mul. Qed.
Lemma vadd_phi a b : map phi (vadd o a b) = vadd o' (map phi a) (map phi b).
Proof. by elim: a b => [|x a IH] [|y b] //; rewrite /= phi_add; congr cons; apply: IH. Qed.
Lemma run_full_phi M x c :
  map phi (run_full o M x c) = run_full o' (map (map phi) M) (map phi x) (map phi c).
Proof.
rewrite /run_full (mulv_phi phi0 phi_add phi_mul) -vadd_phi -!map_comp; congr mulv.
by apply: eq_map => y /=; rewrite pow17_phi.
Qed.
Lemma run_partial_phi M x c :
  map phi (run_partial o M x c) = run_partial o' (map (map phi) M) (map phi x) (map phi c).
Proof.
rewrite /run_partial (mulv_phi phi0 phi_add phi_mul) -vadd_phi; congr mulv.
by case: (vadd _ _ _) => //= y s; rewrite pow17_phi.
Qed.
Lemma run_textbook_phi p x :
  map phi (run_textbook o p x) = run_textbook o' (map_params phi p) (map phi x).
Proof.
have F1 M l y : map phi (foldl (run_full o M) y l)
    = foldl (run_full o' (map (map phi) M)) (map phi y) (map (map phi) l).
  by elim: l y => //= c l IH y; rewrite IH run_full_phi.
have F2 M l y : map phi (foldl (run_partial o M) y l)
    = foldl (run_partial o' (map (map phi) M)) (map phi y) (map (map phi) l).
  by elim: l y => //= c l IH y; rewrite IH run_partial_phi.
by rewrite /run_textbook !F1 F2 F1 !map_take !map_drop !rows_phi.
Qed.
End Transfer.

Section Field.
Variable p : params Fq_fieldType.
Hypothesis hp : List.In p shipped.
Local Notation t := (1 + p_t1 p)%N.
Local Notation o := (field_ops Fq_fieldType).

Lemma vadd_ofV n (a b : 'cV[Fq_fieldType]_n) : vadd o (ofV a) (ofV b) = ofV (a + b).
Proof. by rewrite /vadd /ofV zip_map -map_comp; apply: eq_map => i /=; rewrite !mxE. Qed.

Lemma pow17E (x : Fq_fieldType) : pow17 o x = x ^+ 17.
Proof.
rewrite /pow17 /=; have -> : x * x = x ^+ 2 by [].
by rewrite -!exprD -exprSr.
Qed.

Lemma run_textbookE (x : 'cV[Fq_fieldType]_t) :
  run_textbook o p (ofV x) = ofV (shipped_poseidon p x).
Proof.
have [ht _ _ _ hr] := shipped_spec hp; have wf := shipped_wf hp.
move: wf; rewrite /wf_params ht hr => /and5P [_ w1 w2 _ _].
rewrite /run_textbook ht (rows_toM w1) (rows_rcrow w2) -[_ (RoundNumbers 31 8)]/39%N.
rewrite shipped_mds // /shipped_poseidon /poseidon.
have FF l (y : 'cV[Fq_fieldType]_t) :
    foldl (run_full o (mrows (cauchy_mx Fq_fieldType t))) (ofV y) [seq ofV (rcrow (p_t1 p) (p_arc p) r) | r <- l]
  = ofV (foldl (fun x r => full_round (fun x : Fq => x ^+ 17) (cauchy_mx _ t) x
            (\col_i nth 0 (elements (p_arc p)) (r * t + i))) y l).
  elim: l y => //= r l IH y; rewrite -IH; congr foldl.
  rewrite /run_full vadd_ofV.
  have -> : [seq pow17 o i | i <- ofV (y + rcrow (p_t1 p) (p_arc p) r)]
    = ofV (\col_i ((y + rcrow (p_t1 p) (p_arc p) r) i 0) ^+ 17).
    by rewrite /ofV -map_comp; apply: eq_map => i; rewrite [in RHS]mxE; exact: pow17E.
  by rewrite mulv_ofV.
have FP l (y : 'cV[Fq_fieldType]_t) :
    foldl (run_partial o (mrows (cauchy_mx Fq_fieldType t))) (ofV y) [seq ofV (rcrow (p_t1 p) (p_arc p) r) | r <- l]
  = ofV (foldl (fun x r => partial_round (fun x : Fq => x ^+ 17) (cauchy_mx _ t) x
            (\col_i nth 0 (elements (p_arc p)) (r * t + i))) y l).
  elim: l y => //= r l IH y; rewrite -IH; congr foldl.
  rewrite /run_partial vadd_ofV.
  set z := y + _.
  have -> : sub_head o (ofV z) = ofV (\col_i (if i == 0 then z i 0 ^+ 17 else z i 0)).
    rewrite /ofV enumS !map_cons [in RHS]mxE -pow17E; congr cons.
    by rewrite -!map_comp; apply: eq_map => i; rewrite /= mxE.
  by rewrite mulv_ofV.
rewrite -[take 4 _]/[seq ofV (rcrow (p_t1 p) (p_arc p) r) | r <- iota 0 4] FF.
rewrite -[take 31 _]/[seq ofV (rcrow (p_t1 p) (p_arc p) r) | r <- iota 4 31] FP.
by rewrite -[take 4 _]/[seq ofV (rcrow (p_t1 p) (p_arc p) r) | r <- iota 35 4] FF.
Qed.
End Field.

(** What has to be computed for a test vector. *)
Definition big_hash (r : params limbs) (inp : seq Z) : Z :=
  BigZ.to_Z (nth 0%bigZ (run_textbook bops (map_params bmont r) (map BigZ.of_Z inp)) 1).

Lemma big_hashE r (inp : seq Z) : List.In r shipped_raw -> size inp = p_t r ->
  let p := from_montgomery_params r in
  textbook_hash (p_t1 p) (elements (p_arc p)) (map Fq_of_Z inp) = Fq_of_Z (big_hash r inp).
Proof.
move=> hr sz p.
have hp : List.In p shipped.
  by rewrite shippedE /p; elim: shipped_raw hr => //= a l IH [->|/IH h]; [left | right].
have [ht _ _ _ _] := shipped_spec hp.
rewrite /big_hash -[Fq_of_Z _]/(phi _) (nth_phi phi0 (o := bops)).
rewrite (run_textbook_phi phi0 phi_add phi_mul) map_params_comp (eq_map_params _ phi_bmont).
rewrite -/(from_montgomery_params r) -/p.
have -> : map phi (map BigZ.of_Z inp) = ofV (toV (1 + p_t1 p) (map Fq_of_Z inp)).
  rewrite ofV_toV; last by rewrite size_map sz -ht.
  by rewrite -map_comp; apply: eq_map => z; rewrite /= /phi BigZ.spec_of_Z.
by rewrite (run_textbookE hp).
Qed.

Lemma raw1 : List.In rate_1_raw shipped_raw.
Proof. by left. Qed.
Lemma raw2 : List.In rate_2_raw shipped_raw.
Proof. by right; left. Qed.
Lemma raw3 : List.In rate_3_raw shipped_raw.
Proof. by right; right; left. Qed.
Lemma raw4 : List.In rate_4_raw shipped_raw.
Proof. by right; right; right; left. Qed.
Lemma raw5 : List.In rate_5_raw shipped_raw.
Proof. by right; right; right; right; left. Qed.
Lemma raw6 : List.In rate_6_raw shipped_raw.
Proof. by right; right; right; right; right; left. Qed.
Lemma raw7 : List.In rate_7_raw shipped_raw.
Proof. by right; right; right; right; right; right; left. Qed.

(** ** Test vectors of the repository *)
Definition penumbra_testvec : Z := 132119747078824730781760890905599829328%Z.

(** hash.rs:83 *)
Lemma rate_1_big : (big_hash rate_1_raw [:: penumbra_testvec; 7553885614632219548127688026174585776320152166623257619763178041781456016062]%Z
  =? 2337838243217876174544784248400816541933405738836087430664765452605435675740)%Z = true.
Proof. vm_cast_no_check (erefl true). Qed.
Example rate_1_vector : hash_1 (Fq_of_Z penumbra_testvec) (Fq_of_Z 7553885614632219548127688026174585776320152166623257619763178041781456016062%Z)
  = Ret (Fq_of_Z 2337838243217876174544784248400816541933405738836087430664765452605435675740%Z).
Proof.
rewrite hash_1E; congr Ret; have /Z.eqb_eq <- := rate_1_big.
exact (@big_hashE rate_1_raw [:: penumbra_testvec; 7553885614632219548127688026174585776320152166623257619763178041781456016062]%Z raw1 erefl).
Qed.

(** hash.rs:101 *)
Lemma rate_2_big : (big_hash rate_2_raw [:: penumbra_testvec; 7553885614632219548127688026174585776320152166623257619763178041781456016062;
    2337838243217876174544784248400816541933405738836087430664765452605435675740]%Z
  =? 4318449279293553393006719276941638490334729643330833590842693275258805886300)%Z = true.
Proof. vm_cast_no_check (erefl true). Qed.
Example rate_2_vector : hash_2 (Fq_of_Z penumbra_testvec) (Fq_of_Z 7553885614632219548127688026174585776320152166623257619763178041781456016062%Z,
    Fq_of_Z 2337838243217876174544784248400816541933405738836087430664765452605435675740%Z)
  = Ret (Fq_of_Z 4318449279293553393006719276941638490334729643330833590842693275258805886300%Z).
Proof.
rewrite hash_2E; congr Ret; have /Z.eqb_eq <- := rate_2_big.
exact (@big_hashE rate_2_raw [:: penumbra_testvec; 7553885614632219548127688026174585776320152166623257619763178041781456016062;
    2337838243217876174544784248400816541933405738836087430664765452605435675740]%Z raw2 erefl).
Qed.

(** hash.rs:126 *)
Lemma rate_3_big : (big_hash rate_3_raw [:: penumbra_testvec; 7553885614632219548127688026174585776320152166623257619763178041781456016062;
    2337838243217876174544784248400816541933405738836087430664765452605435675740;
    4318449279293553393006719276941638490334729643330833590842693275258805886300]%Z
  =? 2884734248868891876687246055367204388444877057000108043377667455104051576315)%Z = true.
Proof. vm_cast_no_check (erefl true). Qed.
Example rate_3_vector : hash_3 (Fq_of_Z penumbra_testvec) (Fq_of_Z 7553885614632219548127688026174585776320152166623257619763178041781456016062%Z,
    Fq_of_Z 2337838243217876174544784248400816541933405738836087430664765452605435675740%Z,
    Fq_of_Z 4318449279293553393006719276941638490334729643330833590842693275258805886300%Z)
  = Ret (Fq_of_Z 2884734248868891876687246055367204388444877057000108043377667455104051576315%Z).
Proof.
rewrite hash_3E; congr Ret; have /Z.eqb_eq <- := rate_3_big.
exact (@big_hashE rate_3_raw [:: penumbra_testvec; 7553885614632219548127688026174585776320152166623257619763178041781456016062;
    2337838243217876174544784248400816541933405738836087430664765452605435675740;
    4318449279293553393006719276941638490334729643330833590842693275258805886300]%Z raw3 erefl).
Qed.

(** hash.rs:155 *)
Lemma rate_4_big : (big_hash rate_4_raw [:: penumbra_testvec; 7553885614632219548127688026174585776320152166623257619763178041781456016062;
    2337838243217876174544784248400816541933405738836087430664765452605435675740;
    4318449279293553393006719276941638490334729643330833590842693275258805886300;
    2884734248868891876687246055367204388444877057000108043377667455104051576315]%Z
  =? 5235431038142849831913898188189800916077016298531443239266169457588889298166)%Z = true.
Proof. vm_cast_no_check (erefl true). Qed.
Example rate_4_vector : hash_4 (Fq_of_Z penumbra_testvec) (Fq_of_Z 7553885614632219548127688026174585776320152166623257619763178041781456016062%Z,
    Fq_of_Z 2337838243217876174544784248400816541933405738836087430664765452605435675740%Z,
    Fq_of_Z 4318449279293553393006719276941638490334729643330833590842693275258805886300%Z,
    Fq_of_Z 2884734248868891876687246055367204388444877057000108043377667455104051576315%Z)
  = Ret (Fq_of_Z 5235431038142849831913898188189800916077016298531443239266169457588889298166%Z).
Proof.
rewrite hash_4E; congr Ret; have /Z.eqb_eq <- := rate_4_big.
exact (@big_hashE rate_4_raw [:: penumbra_testvec; 7553885614632219548127688026174585776320152166623257619763178041781456016062;
    2337838243217876174544784248400816541933405738836087430664765452605435675740;
    4318449279293553393006719276941638490334729643330833590842693275258805886300;
    2884734248868891876687246055367204388444877057000108043377667455104051576315]%Z raw4 erefl).
Qed.

(** hash.rs:188 *)
Lemma rate_5_big : (big_hash rate_5_raw [:: penumbra_testvec; 7553885614632219548127688026174585776320152166623257619763178041781456016062;
    2337838243217876174544784248400816541933405738836087430664765452605435675740;
    4318449279293553393006719276941638490334729643330833590842693275258805886300;
    2884734248868891876687246055367204388444877057000108043377667455104051576315;
    5235431038142849831913898188189800916077016298531443239266169457588889298166]%Z
  =? 66948599770858083122195578203282720327054804952637730715402418442993895152)%Z = true.
Proof. vm_cast_no_check (erefl true). Qed.
Example rate_5_vector : hash_5 (Fq_of_Z penumbra_testvec) (Fq_of_Z 7553885614632219548127688026174585776320152166623257619763178041781456016062%Z,
    Fq_of_Z 2337838243217876174544784248400816541933405738836087430664765452605435675740%Z,
    Fq_of_Z 4318449279293553393006719276941638490334729643330833590842693275258805886300%Z,
    Fq_of_Z 2884734248868891876687246055367204388444877057000108043377667455104051576315%Z,
    Fq_of_Z 5235431038142849831913898188189800916077016298531443239266169457588889298166%Z)
  = Ret (Fq_of_Z 66948599770858083122195578203282720327054804952637730715402418442993895152%Z).
Proof.
rewrite hash_5E; congr Ret; have /Z.eqb_eq <- := rate_5_big.
exact (@big_hashE rate_5_raw [:: penumbra_testvec; 7553885614632219548127688026174585776320152166623257619763178041781456016062;
    2337838243217876174544784248400816541933405738836087430664765452605435675740;
    4318449279293553393006719276941638490334729643330833590842693275258805886300;
    2884734248868891876687246055367204388444877057000108043377667455104051576315;
    5235431038142849831913898188189800916077016298531443239266169457588889298166]%Z raw5 erefl).
Qed.

(** hash.rs:225 *)
Lemma rate_6_big : (big_hash rate_6_raw [:: penumbra_testvec; 7553885614632219548127688026174585776320152166623257619763178041781456016062;
    2337838243217876174544784248400816541933405738836087430664765452605435675740;
    4318449279293553393006719276941638490334729643330833590842693275258805886300;
    2884734248868891876687246055367204388444877057000108043377667455104051576315;
    5235431038142849831913898188189800916077016298531443239266169457588889298166;
    66948599770858083122195578203282720327054804952637730715402418442993895152]%Z
  =? 6797655301930638258044003960605211404784492298673033525596396177265014216269)%Z = true.
Proof. vm_cast_no_check (erefl true). Qed.
Example rate_6_vector : hash_6 (Fq_of_Z penumbra_testvec) (Fq_of_Z 7553885614632219548127688026174585776320152166623257619763178041781456016062%Z,
    Fq_of_Z 2337838243217876174544784248400816541933405738836087430664765452605435675740%Z,
    Fq_of_Z 4318449279293553393006719276941638490334729643330833590842693275258805886300%Z,
    Fq_of_Z 2884734248868891876687246055367204388444877057000108043377667455104051576315%Z,
    Fq_of_Z 5235431038142849831913898188189800916077016298531443239266169457588889298166%Z,
    Fq_of_Z 66948599770858083122195578203282720327054804952637730715402418442993895152%Z)
  = Ret (Fq_of_Z 6797655301930638258044003960605211404784492298673033525596396177265014216269%Z).
Proof.
rewrite hash_6E; congr Ret; have /Z.eqb_eq <- := rate_6_big.
exact (@big_hashE rate_6_raw [:: penumbra_testvec; 7553885614632219548127688026174585776320152166623257619763178041781456016062;
    2337838243217876174544784248400816541933405738836087430664765452605435675740;
    4318449279293553393006719276941638490334729643330833590842693275258805886300;
    2884734248868891876687246055367204388444877057000108043377667455104051576315;
    5235431038142849831913898188189800916077016298531443239266169457588889298166;
    66948599770858083122195578203282720327054804952637730715402418442993895152]%Z raw6 erefl).
Qed.
