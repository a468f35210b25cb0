(** The search for round numbers returns the cheapest secure candidate. *)
From Coq Require Import ZArith NArith Lia.
From mathcomp Require Import all_ssreflect.
From Verif Require Import Base Params Transcript Rounds RoundsSpec F64Proofs Slia.
Set Implicit Arguments.
Unset Strict Implicit.
Unset Printing Implicit Defensive.

Definition margin (c : rounds) : rounds := RoundNumbers ((43 * r_P c + 39) %/ 40) (r_F c + 2).

Lemma margin_with c : with_margin c (margin c).
Proof.
rewrite /with_margin /margin /=; split => //.
  by have E := divn_eq (43 * r_P c + 39) 40; have : (43 * r_P c + 39) %% 40 < 40 by [rewrite ltn_mod]; slia.
by have E := divn_eq (43 * r_P c + 39) 40; slia.
Qed.

Lemma with_marginE c r : with_margin c r -> r = margin c.
Proof.
move: (margin_with c); case: r (margin c) => p f [p' f'] [/= -> H1 H2] [/= -> H3 H4].
by congr RoundNumbers; slia.
Qed.

Lemma margin_mono c c' : r_P c < r_P c' -> r_P (margin c) < r_P (margin c').
Proof. by case: (margin_with c) => _ H1 H2; case: (margin_with c') => _ H3 H4; slia. Qed.

Lemma rounds_eq (c c' : rounds) : r_P c = r_P c' -> r_F c = r_F c' -> c = c'.
Proof. by case: c c' => [? ?] [? ?] /= -> ->. Qed.

Definition small (t : nat) := (N.of_nat t < 2 ^ 56)%num.

Section Search.
Variables (secure : rounds -> outcome bool) (t : nat).
Hypothesis t_small : small t.

Local Notation ok c := (secure c = Ret true).

Definition step (rPF : nat * nat) := search_step secure t rPF.1 rPF.2.

Lemma for_in_pairs S (xs ys : seq nat) (body : nat -> nat -> S -> outcome S) s :
  for_in xs (fun x => for_in ys (body x)) s =
  for_in [seq (x, y) | x <- xs, y <- ys] (fun xy => body xy.1 xy.2) s.
Proof.
elim: xs s => [|x xs IH] s //=.
rewrite for_in_cat for_in_map /=; apply: bind_ext => s'.
exact: IH.
Qed.

Definition cand (x : nat * nat) := RoundNumbers x.1 x.2.

(** [c] is at least as good as [c'] *)
Definition as_good c c' :=
  c' = c \/ (sboxes t (margin c) < sboxes t (margin c') \/
             sboxes t (margin c) = sboxes t (margin c') /\ r_F (margin c) < r_F (margin c')).

Definition inv (l : seq (nat * nat)) (st : option rounds * N * N) : Prop :=
  match st with
  | (None, cost, rf) => [/\ cost = usize_max, rf = usize_max & forall x, x \in l -> ~ ok (cand x)]
  | (Some r, cost, rf) =>
      exists2 x, x \in l &
        [/\ ok (cand x), r = margin (cand x), cost = N.of_nat (sboxes t (margin (cand x))),
            rf = N.of_nat x.2 &
            forall y, y \in l -> ok (cand y) -> as_good (cand x) (cand y)]
  end.

Lemma as_good_trans c c' c'' : as_good c c' -> as_good c' c'' -> as_good c c''.
Proof.
case=> [-> //|H] [-> |H']; first by right.
by right; case: H H' => [H|[-> H]] [H'|[H'' H']]; by [left; slia | right; split=> //; slia].
Qed.

Definition in_box (x : nat * nat) := (1 <= x.1 < 400) && (4 <= x.2 < 100).

Lemma sboxes_small x : in_box x -> (N.of_nat (sboxes t (margin (cand x))) < usize_max)%num.
Proof.
move=> /andP[/andP[_ H1] /andP[_ H2]].
case: (margin_with (cand x)); rewrite -[r_P (cand x)]/x.1 -[r_F (cand x)]/x.2 /sboxes.
move: (r_P _) (r_F _) => p f Hf' H4 H5.
have Hp : p <= 430 by clear -H1 H5; slia.
have Hf : f <= 101 by clear -H2 Hf'; slia.
apply: (@N.le_lt_trans _ (N.of_nat t * 101 + 430)%num); last by move: t_small; rewrite /small /usize_max; lia.
rewrite -plusE -multE Nat2N.inj_add Nat2N.inj_mul.
apply: N.add_le_mono; last by clear -Hp; slia.
by apply: N.mul_le_mono_l; clear -Hf; slia.
Qed.

Lemma step_inv l x st st' :
  all in_box l -> in_box x -> inv l st -> step x st = Ret st' -> inv (rcons l x) st'.
Proof.
move=> Hl Hx; case: st => [[ch cost] rf] I; rewrite /step /search_step.
case E: (secure _) => [b|] //=; case: b E => E /=; last first.
  case=> <-; case: ch I => [r|] /=.
    case=> y Hy [H1 H2 H3 H4 H5]; exists y; first by rewrite mem_rcons inE Hy orbT.
    split=> // z; rewrite mem_rcons inE => /orP[/eqP -> |Hz]; last exact: H5.
    by rewrite /cand E.
  case=> H1 H2 H3; split=> // z; rewrite mem_rcons inE => /orP[/eqP -> |Hz]; last exact: H3.
  by rewrite /cand E.
rewrite apply_security_marginE /=; last first.
  by case/andP: Hx => /andP[_ H] _ /=; clear -H; slia.
rewrite -/(margin (cand x)) (_ : sbox_count _ t = N.of_nat (sboxes t (margin (cand x)))); last first.
  by rewrite /sbox_count /sboxes; slia.
case: ch I => [r|] /=; last first.
  case=> -> -> H3.
  have -> : N.ltb (N.of_nat (sboxes t (margin (cand x)))) usize_max.
    by apply/N.ltb_spec0; apply: sboxes_small.
  case=> <- /=; exists x; first by rewrite mem_rcons inE eqxx.
  split=> // y; rewrite mem_rcons inE => /orP[/eqP -> _|Hy /(H3 _ Hy) //]; by left.
case=> y Hy [H1 -> -> -> H5].
case: ifP => C [<-] /=.
  exists x; first by rewrite mem_rcons inE eqxx.
  split=> // z; rewrite mem_rcons inE => /orP[/eqP -> _|Hz Oz]; first by left.
  apply: as_good_trans (H5 z Hz Oz); right.
  case/orP: C => [/N.ltb_spec0 C|/andP[/N.eqb_spec C /N.ltb_spec0 C']]; first by left; slia.
  by right; rewrite /=; split; slia.
exists y; first by rewrite mem_rcons inE Hy orbT.
split=> // z; rewrite mem_rcons inE => /orP[/eqP -> _|Hz Oz]; last exact: H5.
move/negbT: C; rewrite negb_or => /andP[/N.ltb_spec0 C1 C2].
rewrite /as_good.
case: (ltngtP (sboxes t (margin (cand y))) (sboxes t (margin (cand x)))) => C3; first by right; left.
  by case: C1; slia.
move: C2; rewrite C3 N.eqb_refl /= => /N.ltb_spec0 C2.
case: (ltngtP y.2 x.2) => C4; first by right; right; split=> //=; slia.
  by case: C2; slia.
left; apply: rounds_eq => //=.
case: (ltngtP y.1 x.1) => // C5.
  have := @margin_mono (cand y) (cand x) C5.
  by move: C3; rewrite /sboxes /= C4; clear; slia.
have := @margin_mono (cand x) (cand y) C5.
by move: C3; rewrite /sboxes /= C4; clear; slia.
Qed.

Lemma loop_inv l xs st st' :
  all in_box (l ++ xs) -> inv l st -> for_in xs step st = Ret st' -> inv (l ++ xs) st'.
Proof.
elim: xs l st => [|x xs IH] l st /=; first by rewrite cats0 => _ I [<-].
rewrite -cat_rcons => Hl I; case E: (step x st) => [st1|] //=; apply: IH => //.
move: Hl; rewrite all_cat all_rcons => /andP[/andP[Hx Hl] _].
exact: step_inv E.
Qed.

Definition box : seq (nat * nat) := [seq (x, y) | x <- range 1 400, y <- range 4 100].

Lemma mem_box x : (x \in box) = in_box x.
Proof.
case: x => a b; rewrite /in_box /=; apply/allpairsP/idP => /=.
  by case=> [[a' b']] /= [H1 H2 [-> ->]]; move: H1 H2; rewrite !mem_iota => -> ->.
by move=> /andP[H1 H2]; exists (a, b); rewrite !mem_iota.
Qed.

Lemma searchE : search secure t =
  bind (for_in box step (None, usize_max, usize_max))
       (fun st => match st.1.1 with Some c => Ret c | None => Panic end).
Proof. by rewrite /search for_in_pairs. Qed.

Lemma candidateE x : candidate (cand x) <-> in_box x.
Proof.
rewrite /in_box; split; first by case=> /= -> -> -> ->.
by case/andP=> /andP[? ?] /andP[].
Qed.

Lemma cand_of c : c = cand (r_P c, r_F c).
Proof. by case: c. Qed.

Lemma search_ret r : search secure t = Ret r -> exists c, cheapest (fun c => ok c) t c r.
Proof.
rewrite searchE; move: box mem_box => b mem_b.
case E: (for_in _ _ _) => [[[ch cost] rf]|] //=; case: ch E => // r' E [<-].
have := @loop_inv [::] b _ _ _ _ E; case=> //.
  by rewrite cat0s; apply/allP => x; rewrite mem_b.
move=> x; rewrite cat0s mem_b => Hx [H1 -> _ _ H5].
exists (cand x); split=> //; first exact/candidateE.
  exact: margin_with.
move=> c' r''; rewrite (cand_of c') => /candidateE Hc Oc /with_marginE -> N.
by case: (H5 _ _ Oc) => //; rewrite mem_b.
Qed.

Lemma loop_nopanic xs st : {in xs, forall x, secure (cand x) <> Panic} -> for_in xs step st <> Panic.
Proof.
elim: xs st => [|x xs IH] st //= H.
have Hx : secure (cand x) <> Panic by apply: H; rewrite inE eqxx.
have {H}IH st' : for_in xs step st' <> Panic by apply: IH => y Hy; apply: H; rewrite inE Hy orbT.
case: st => [[ch cost] rf]; rewrite /step /search_step.
move: Hx; rewrite /cand; case: (secure _) => [b|] // _ /=.
by case: b => /=; [case: ifP => _ /= | ]; apply: IH.
Qed.

Lemma loop_panic xs st : for_in xs step st = Panic -> exists2 x, x \in xs & secure (cand x) = Panic.
Proof.
elim: xs st => [|x xs IH] //= st.
case E: (step x st) => [st'|] /=; first by move/IH => [y Hy]; exists y => //; rewrite inE Hy orbT.
move: E; case: st => [[ch cost] rf]; rewrite /step /search_step => E _.
exists x; first by rewrite inE eqxx.
by move: E; rewrite /cand; case: (secure _) => [[]|] //=; case: ifP.
Qed.

Lemma panic_loop xs x st : x \in xs -> secure (cand x) = Panic -> for_in xs step st = Panic.
Proof.
elim: xs st => [|y xs IH] //= st; rewrite inE => /orP[/eqP <- |Hx] P.
  by case: st => [[ch cost] rf]; rewrite {1}/step /search_step -/(cand x) P.
by case: (step y st) => //= st'; apply: IH.
Qed.

(** The search panics exactly when the security test of some candidate panics or
    none is secure. *)
Lemma search_panic : search secure t = Panic <->
  (exists2 c, candidate c & secure c = Panic) \/ (forall c, candidate c -> secure c = Ret false).
Proof.
have [b mem_b searchE'] : exists2 b, (forall x, (x \in b) = in_box x) & search secure t =
    bind (for_in b step (None, usize_max, usize_max))
         (fun st => match st.1.1 with Some c => Ret c | None => Panic end).
  by exists box; [exact: mem_box | exact: searchE].
split.
  rewrite searchE'; case E: (for_in _ _ _) => [[[ch cost] rf]|] /=; last first.
    move/loop_panic: E => [x]; rewrite mem_b => /candidateE Hx P _.
    by left; exists (cand x).
  case: ch E => // E _; right=> c Hc.
  have [] := @loop_inv [::] b _ _ _ _ E.
  - by rewrite cat0s; apply/allP => x; rewrite mem_b.
  - by split.
  rewrite cat0s => _ _ H.
  have Hb : (r_P c, r_F c) \in b by rewrite mem_b; apply/candidateE; rewrite -cand_of.
  have := H _ Hb; rewrite -cand_of.
  case Es: (secure c) => [[]|] // _; exfalso.
  by rewrite (@panic_loop _ (r_P c, r_F c)) // in E; rewrite -cand_of.
case=> [[c Hc P]|H].
  rewrite searchE' (@panic_loop _ (r_P c, r_F c)) //; last by rewrite -cand_of.
  by rewrite mem_b; apply/candidateE; rewrite -cand_of.
case E: (search secure t) => [r|] //.
by case: (search_ret E) => c [Hc /= O _ _]; rewrite H in O.
Qed.

(** The cheapest secure candidate is unique. *)
Lemma cheapest_unique (S : rounds -> Prop) c r c' r' :
  cheapest S t c r -> cheapest S t c' r' -> c = c' /\ r = r'.
Proof.
case=> H1 H2 H3 H4 [H1' H2' H3' H4'].
suff E : c = c' by split=> //; rewrite (with_marginE H3) (with_marginE H3') E.
have [->//|N] : c = c' \/ c <> c'.
  case: c c' {H1 H2 H3 H4 H1' H2' H3' H4'} => [a b] [a' b'].
  by case: (a =P a') => [->|?]; case: (b =P b') => [->|?]; by [left | right; case].
by case: (H4 _ _ H1' H2' H3' (not_eq_sym N)) => [A|[A A']]; case: (H4' _ _ H1 H2 H3 N) => [B|[B B']]; slia.
Qed.
End Search.
