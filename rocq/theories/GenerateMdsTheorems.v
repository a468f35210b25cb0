(** Proofs about vendor/generate_mds.sage: the sponge, the constants and the instances. *)
From Coq Require Import ZArith String.
From mathcomp Require Import all_ssreflect all_algebra.
From Verif Require Import Base Cauchy GenerateMds GenerateMdsSpec GenerateMdsProofs GenerateMdsRounds.
Set Implicit Arguments.
Unset Strict Implicit.
Unset Printing Implicit Defensive.
Import GRing.Theory.
Local Open Scope ring_scope.
Local Open Scope rust_scope.

Section Sponge.
Variables (F : finFieldType) (g : seq F -> outcome (seq F)) (f : seq F -> seq F) (m r out : nat).
Hypothesis r0 : (0 < r)%N.
Hypothesis rm : (r <= m)%N.
Hypothesis gf : forall s, size s = m -> g s = Ret (f s) /\ size (f s) = m.

Lemma add_frontE (s b : seq F) : size s = m -> size b = r ->
  add_front r s b = Ret (mkseq (fun i => nth 0 s i + (if (i < r)%N then nth 0 b i else 0)) (size s)).
Proof.
move=> ss sb; rewrite /add_front size_takel ?ss // sb eqxx; congr Ret.
have sz : size ([seq p.1 + p.2 | p <- zip (take r s) b] ++ drop r s) = m.
  by rewrite size_cat size_map size_zip size_takel ?ss // sb minnn size_drop ss subnKC.
apply: (@eq_from_nth _ 0); first by rewrite sz size_mkseq.
move=> i; rewrite sz => im; rewrite nth_mkseq // nth_cat size_map size_zip size_takel ?ss // sb minnn.
case: ltnP => ir; last by rewrite nth_drop subnKC // addr0.
rewrite (nth_map (0, 0)) ?size_zip ?size_takel ?ss ?sb ?minnn // nth_zip ?size_takel ?ss //=.
by rewrite nth_take.
Qed.

Lemma absorb_loop j (bs : seq (seq F)) (pre s : seq F) : all (fun b => size b == r) bs -> size pre = (j * r)%N -> size s = m ->
  for_in (iota j (size bs)) (fun k state =>
    state <- add_front r state (take r (drop (k * r) (pre ++ flatten bs))) ;; g state) s = Ret (absorb f r bs s) /\
  size (absorb f r bs s) = m.
Proof.
elim: bs j pre s => [|b bs IH] j pre s //= /andP [/eqP sb hbs] sp ss.
rewrite drop_size_cat // take_size_cat // add_frontE //= .
set s' := mkseq _ _; have s's : size s' = m by rewrite size_mkseq.
have [-> sf] := gf s's; rewrite /=.
rewrite catA; apply: IH => //.
by rewrite size_cat sp sb mulSn addnC.
Qed.

Theorem sponge_cases (bs : seq (seq F)) : all (fun b => size b == r) bs ->
  sponge g m r out (flatten bs) = if (out <= r)%N then Ret (take out (absorb f r bs (nseq m 0))) else Panic.
Proof.
move=> hbs; have sz : size (flatten bs) = (size bs * r)%N.
  elim: bs hbs => //= b bs IH /andP [/eqP sb hbs]; by rewrite size_cat sb IH // mulSn.
rewrite /sponge; case: r r0 rm gf hbs sz absorb_loop => // r' _ _ _ hbs sz L.
rewrite sz modnMl eqxx mulnK //= .
have [-> _] := L 0%N bs [::] (nseq m 0) hbs erefl (size_nseq _ _).
by rewrite /= /py_assert; case: ifP.
Qed.

Theorem sponge_length (inputs : seq F) : ~~ (r %| size inputs)%N -> sponge g m r out inputs = Panic.
Proof. by rewrite /dvdn /sponge; case: r r0 => // r' _ /negbTE ->. Qed.
End Sponge.

Section Constants.
Variables (F : finFieldType) (rc : string -> nat -> F).

Theorem ark_flat t R : flatten (ark_rs rc t R) = mkseq (rc "Hades") (R * t) /\ shape (ark_rs rc t R) = nseq R t.
Proof.
split; last first.
  apply: (@eq_from_nth _ 0%N); first by rewrite !size_map size_iota size_nseq.
  move=> i; rewrite !size_map size_iota => iR; rewrite nth_nseq iR.
  by rewrite /shape /ark_rs -map_comp (nth_map 0%N) ?size_iota //= size_map size_iota.
rewrite /ark_rs /mkseq.
have -> k : flatten [seq [seq rc "Hades" (t * i + j)%N | j <- iota 0 t] | i <- iota k R] = [seq rc "Hades" i | i <- iota (k * t) (R * t)].
  elim: R k => //= R IH k; rewrite IH mulSn iotaD map_cat [in RHS]addnC -mulSn; congr (_ ++ _).
  by rewrite -[(k * t)%N]addn0 iotaDl -map_comp mulnC; apply: eq_map => j.
by rewrite mul0n.
Qed.
End Constants.

Section Instances.
Variables (F : finFieldType) (rc : string -> nat -> F).

Lemma script_instanceE arity I : script_instance rc arity = Ret I <-> exists n M,
  [/\ script_rounds arity = Ret n, generate_mds_matrix rc "HadesMDS" arity.+1 false = Ret M &
      I = @Instance F 8 (n - 8) 17 arity.+1 (ark_rs rc arity.+1 (Z.to_nat n)) M arity 1].
Proof.
rewrite /script_instance /script_capacity_size addn1 /generate_poseidon_param_code.
rewrite -[append "Hades" "MDS"]/"HadesMDS"%string.
case: script_rounds => [n|] /=; last by split=> // -[n [M []]].
rewrite -/(@generate_mds_matrix F rc "HadesMDS" arity.+1 false).
case: generate_mds_matrix => [M|] /=; last by split=> // -[n' [M []]].
rewrite (_ : n - (n - 8) = 8)%Z; last by ring.
split=> [[<-]|]; first by exists n, M.
by case=> n' [M' [[->] [->] ->]].
Qed.

Theorem instance_cases arity I : (1 <= arity <= 5)%N -> script_instance rc arity = Ret I ->
  [/\ i_size I = arity.+1, i_rate I = arity, i_capacity I = 1%N & i_alpha I = 17%N] /\
  [/\ i_full I = 8%Z, i_partial I = nth 0%Z [:: 0; 30; 31; 30; 26; 23]%Z arity,
    flatten (i_ark I) = mkseq (rc "Hades") (Z.to_nat (i_full I + i_partial I) * arity.+1) &
    shape (i_ark I) = nseq (Z.to_nat (i_full I + i_partial I)) arity.+1] /\
  [/\ mds_mx (i_mds I) & forall z, ~ has_eigenvalue (i_mds I) z].
Proof.
move=> ha /script_instanceE [n [M [En EM ->]]]; cbn [i_full i_partial i_ark i_mds i_size i_rate i_capacity i_alpha].
have [A B] := ark_flat rc arity.+1 (Z.to_nat n).
have [m1 m2 _] := matrix_good EM.
have -> : (8 + (n - 8) = n)%Z by ring.
split; [by []|split=> //; split=> //].
move: ha En {A B EM m1 m2 M}; case: arity => [|[|[|[|[|[|]]]]]] // _.
- by rewrite rounds_1 => -[<-].
- by rewrite rounds_2 => -[<-].
- by rewrite rounds_3 => -[<-].
- by rewrite rounds_4 => -[<-].
- by rewrite rounds_5 => -[<-].
Qed.

Theorem instances_share a b I J k : (1 <= a <= 5)%N -> (1 <= b <= 5)%N ->
  script_instance rc a = Ret I -> script_instance rc b = Ret J ->
  (k < size (flatten (i_ark I)))%N -> (k < size (flatten (i_ark J)))%N ->
  nth 0 (flatten (i_ark I)) k = nth 0 (flatten (i_ark J)) k.
Proof.
move=> ha hb /(instance_cases ha) [_ [[_ _ -> _] _]] /(instance_cases hb) [_ [[_ _ -> _] _]].
by rewrite !size_mkseq => h1 h2; rewrite !nth_mkseq.
Qed.
End Instances.
