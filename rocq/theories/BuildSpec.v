(** What a piece of Rust source text means, for the fragment of Rust that
    parameter files are written in: a lexer, a parser and an evaluator, written
    without reference to the code that prints such files.

    The fragment: [use] declarations; functions with one bounded type parameter,
    no arguments and an expression as body; integer and string literals, paths,
    calls, method calls, struct literals, [vec![..]], closures, [()].  The
    evaluator gives the constructors of poseidon-parameters, ark-ff's
    [F::from_str] and the methods of [Result] their documented meaning; a name
    is only understood when the file imports it.  [None] stands for "does not
    compile" or "panics when run". *)
From Coq Require Import ZArith NArith Ascii String.
From mathcomp Require Import all_ssreflect all_algebra.
From Verif Require Import Base Matrix Params Bytes PrimeField Transcript Mds.
Set Implicit Arguments.
Unset Strict Implicit.
Unset Printing Implicit Defensive.
Delimit Scope Z_scope with Z.

(** * Tokens *)

Inductive tok := TId of bytes | TNum of bytes | TStr of bytes | TSym of N.

(** The code point of a character. *)
Definition chr (c : ascii) : N := N_of_ascii c.

Definition is_digit (c : N) : bool := (48 <=? c)%num && (c <=? 57)%num.
Definition is_alpha (c : N) : bool :=
  [|| (65 <=? c)%num && (c <=? 90)%num, (97 <=? c)%num && (c <=? 122)%num | c == chr "_"].
Definition is_space (c : N) : bool := (c == chr " ") || (c == 10%num).
Definition is_symbol (c : N) : bool := c \in str "()[]{}<>:;,.!|-".

(** The lexer reads one character at a time; its modes are: between tokens,
    inside an identifier, a number, a string literal, after one slash, inside a
    comment, and failed. *)
Inductive mode := MNone | MId of bytes | MNum of bytes | MStr of bytes | MSlash | MComment | MBad.

Definition lex_start (c : N) : mode * seq tok :=
  if is_alpha c then (MId [:: c], [::])
  else if is_digit c then (MNum [:: c], [::])
  else if is_space c then (MNone, [::])
  else if c == chr """" then (MStr [::], [::])
  else if c == chr "/" then (MSlash, [::])
  else if is_symbol c then (MNone, [:: TSym c])
  else (MBad, [::]).

Definition lex_step (m : mode) (c : N) : mode * seq tok :=
  match m with
  | MNone => lex_start c
  | MId s => if is_alpha c || is_digit c then (MId (rcons s c), [::])
             else let: (m', ts) := lex_start c in (m', TId s :: ts)
  | MNum s => if is_digit c then (MNum (rcons s c), [::])
              else if is_alpha c then (MBad, [::])
              else let: (m', ts) := lex_start c in (m', TNum s :: ts)
  | MStr s => if c == chr """" then (MNone, [:: TStr s])
              else if c == chr "\" then (MBad, [::])
              else (MStr (rcons s c), [::])
  | MSlash => if c == chr "/" then (MComment, [::]) else (MBad, [::])
  | MComment => if c == 10%num then (MNone, [::]) else (MComment, [::])
  | MBad => (MBad, [::])
  end.

Fixpoint lex_run (m : mode) (s : bytes) : mode * seq tok :=
  match s with
  | [::] => (m, [::])
  | c :: s' => let: (m1, t1) := lex_step m c in
               let: (m2, t2) := lex_run m1 s' in (m2, t1 ++ t2)
  end.

Definition lex (s : bytes) : option (seq tok) :=
  let: (m, ts) := lex_run MNone s in
  match m with
  | MNone | MComment => Some ts
  | MId x => Some (rcons ts (TId x))
  | MNum x => Some (rcons ts (TNum x))
  | _ => None
  end.

(** * Expressions *)

Inductive expr :=
| ENum of bytes
| EStr of bytes
| EPath of seq bytes
| ECall of seq bytes & seq expr
| EStruct of seq bytes & seq (bytes * expr)
| EVec of seq expr
| EMethod of expr & bytes & seq expr
| EClosure of bytes & expr
| EUnit.

Definition is_sym (c : ascii) (t : tok) : bool := if t is TSym d then d == chr c else false.

(** [:: :: id :: id ..] after a first identifier *)
Fixpoint p_path (acc : seq bytes) (ts : seq tok) : seq bytes * seq tok :=
  match ts with
  | a :: ((b :: ((TId y :: r) as _)) as _) =>
      if is_sym ":" a && is_sym ":" b then p_path (rcons acc y) r else (acc, ts)
  | _ => (acc, ts)
  end.

Fixpoint p_expr (k : nat) (ts : seq tok) : option (expr * seq tok) :=
  match k with
  | 0 => None
  | k.+1 =>
      match ts with
      | TNum s :: r => p_post k (ENum s) r
      | TStr s :: r => p_post k (EStr s) r
      | TSym c :: r =>
          if c == chr "(" then
            match r with
            | t :: r' => if is_sym ")" t then p_post k EUnit r' else None
            | _ => None
            end
          else if c == chr "|" then
            match r with
            | TId x :: t :: r' =>
                if is_sym "|" t then
                  match p_expr k r' with Some (e, r'') => Some (EClosure x e, r'') | None => None end
                else None
            | _ => None
            end
          else None
      | TId x :: r =>
          match r with
          | a :: b :: r' =>
              if [&& x == str "vec", is_sym "!" a & is_sym "[" b] then
                match p_args k "]" r' with Some (es, r'') => p_post k (EVec es) r'' | None => None end
              else p_named k x r
          | _ => p_named k x r
          end
      | [::] => None
      end
  end
(** an expression that begins with a path *)
with p_named (k : nat) (x : bytes) (r : seq tok) : option (expr * seq tok) :=
  match k with
  | 0 => None
  | k.+1 =>
      let: (p, r') := p_path [:: x] r in
      match r' with
      | t :: r'' =>
          if is_sym "(" t then
            match p_args k ")" r'' with Some (es, q) => p_post k (ECall p es) q | None => None end
          else if is_sym "{" t then
            match p_fields k r'' with Some (fs, q) => p_post k (EStruct p fs) q | None => None end
          else p_post k (EPath p) r'
      | [::] => p_post k (EPath p) r'
      end
  end
(** comma-separated expressions up to a closing bracket *)
with p_args (k : nat) (close : ascii) (ts : seq tok) : option (seq expr * seq tok) :=
  match k with
  | 0 => None
  | k.+1 =>
      match ts with
      | [::] => None
      | t :: r =>
          if is_sym close t then Some ([::], r)
          else match p_expr k ts with
               | Some (e, a :: q) =>
                   if is_sym close a then Some ([:: e], q)
                   else if is_sym "," a then
                     match p_args k close q with Some (es, q') => Some (e :: es, q') | None => None end
                   else None
               | _ => None
               end
      end
  end
(** comma-separated fields up to the closing brace *)
with p_fields (k : nat) (ts : seq tok) : option (seq (bytes * expr) * seq tok) :=
  match k with
  | 0 => None
  | k.+1 =>
      match ts with
      | TId x :: c :: r =>
          if is_sym ":" c then
            match p_expr k r with
            | Some (e, a :: q) =>
                if is_sym "}" a then Some ([:: (x, e)], q)
                else if is_sym "," a then
                  match p_fields k q with Some (fs, q') => Some ((x, e) :: fs, q') | None => None end
                else None
            | _ => None
            end
          else None
      | t :: r => if is_sym "}" t then Some ([::], r) else None
      | [::] => None
      end
  end
(** method calls after an expression *)
with p_post (k : nat) (e : expr) (ts : seq tok) : option (expr * seq tok) :=
  match k with
  | 0 => None
  | k.+1 =>
      match ts with
      | d :: r =>
          if is_sym "." d then
            match r with
            | TId m :: a :: r' =>
                if is_sym "(" a then
                  match p_args k ")" r' with Some (es, q) => p_post k (EMethod e m es) q | None => None end
                else None
            | _ => None
            end
          else Some (e, ts)
      | [::] => Some (e, ts)
      end
  end.

(** Enough fuel for any expression among these tokens. *)
Definition fuel (ts : seq tok) : nat := (4 * size ts + 4)%N.

(** * Files *)

Inductive item :=
(** [use path::{name, ..};] or [use path::name;] *)
| IUse of seq bytes & seq bytes
(** [pub fn name<G: B>() -> R<G'> { body }] *)
| IFn of bytes & bytes & bytes & bytes & bytes & expr.

(** [name, name, .. }] *)
Fixpoint p_names (ts : seq tok) : option (seq bytes * seq tok) :=
  match ts with
  | TId x :: ((a :: r) as _) =>
      if is_sym "}" a then Some ([:: x], r)
      else if is_sym "," a then
        match p_names r with Some (xs, q) => Some (x :: xs, q) | None => None end
      else None
  | _ => None
  end.

Definition p_use (ts : seq tok) : option (item * seq tok) :=
  match ts with
  | TId x :: r =>
      let: (p, q) := p_path [:: x] r in
      match q with
      | [:: a, b, o & q'] =>
          if is_sym ";" a then Some (IUse (belast x (behead p)) [:: last x p], [:: b, o & q'])
          else if [&& is_sym ":" a, is_sym ":" b & is_sym "{" o] then
            match p_names q' with
            | Some (xs, s :: q'') => if is_sym ";" s then Some (IUse p xs, q'') else None
            | _ => None
            end
          else None
      | a :: q' => if is_sym ";" a then Some (IUse (belast x (behead p)) [:: last x p], q') else None
      | [::] => None
      end
  | _ => None
  end.

Definition p_fn (ts : seq tok) : option (item * seq tok) :=
  match ts with
  | [:: TId f, TId name, lt, TId g, col, TId b, gt, op, cl, mi, ar, TId r, lt', TId g', gt', br & body] =>
      if [&& f == str "fn", is_sym "<" lt, is_sym ":" col, is_sym ">" gt, is_sym "(" op, is_sym ")" cl,
             is_sym "-" mi, is_sym ">" ar, is_sym "<" lt', is_sym ">" gt' & is_sym "{" br] then
        match p_expr (fuel body) body with
        | Some (e, c :: q) => if is_sym "}" c then Some (IFn name g b r g' e, q) else None
        | _ => None
        end
      else None
  | _ => None
  end.

Fixpoint p_items (k : nat) (ts : seq tok) : option (seq item) :=
  match k, ts with
  | _, [::] => Some [::]
  | k.+1, TId x :: r =>
      match (if x == str "use" then p_use r else if x == str "pub" then p_fn r else None) with
      | Some (i, q) => match p_items k q with Some l => Some (i :: l) | None => None end
      | None => None
      end
  | _, _ => None
  end.

Definition parse_expr (s : bytes) : option expr :=
  match lex s with
  | Some ts => match p_expr (fuel ts) ts with Some (e, [::]) => Some e | _ => None end
  | None => None
  end.

Definition parse_file (s : bytes) : option (seq item) :=
  match lex s with Some ts => p_items (size ts) ts | None => None end.

(** * Values *)

(** The value of a string of decimal digits. *)
Definition decimal (s : bytes) : N := foldl (fun a c => 10 * a + (c - 48))%num 0%num s.

Inductive kind := KMatrix | KSquare | KMds | KArc | KOptArc.

Section Values.
Variable PF : prime_field.

Inductive value :=
| VInt of N
| VString of bytes
| VUnit
| VClosure
| VField of PF
| VResult of option PF
| VVec of seq value
| VMat of kind & rmat PF
| VAlpha of alpha
| VRounds of rounds
| VOpt of optimized_mds PF
| VParams of params PF.

(** ark-ff's [F::from_str]: decimal digits; "does not accept unnecessary leading
    zeroes or a blank string". *)
Definition from_str (s : bytes) : option PF :=
  if [&& s != [::], all is_digit s & (s == str "0") || (head 0%num s != chr "0")]
  then Some (pf_of PF (Z.of_N (decimal s))) else None.

(** An integer literal at type [usize], [u32]. *)
Definition usize_lit (v : value) : option nat :=
  if v is VInt n then (if (n <? 2 ^ 64)%num then Some (N.to_nat n) else None) else None.
Definition u32_lit (v : value) : option N :=
  if v is VInt n then (if (n <? 2 ^ 32)%num then Some n else None) else None.
Definition as_field (v : value) : option PF := if v is VField x then Some x else None.
Definition as_mat (k : kind) (v : value) : option (rmat PF) :=
  match v, k with
  | VMat KMatrix m, KMatrix | VMat KSquare m, KSquare | VMat KMds m, KMds
  | VMat KArc m, KArc | VMat KOptArc m, KOptArc => Some m
  | _, _ => None
  end.
Definition as_alpha (v : value) : option alpha := if v is VAlpha a then Some a else None.
Definition as_rounds (v : value) : option rounds := if v is VRounds a then Some a else None.
Definition as_opt (v : value) : option (optimized_mds PF) := if v is VOpt a then Some a else None.

Definition all_some {A B} (f : A -> option B) : seq A -> option (seq B) :=
  fix rec xs :=
  match xs with
  | [::] => Some [::]
  | x :: xs' => match f x, rec xs' with Some y, Some ys => Some (y :: ys) | _, _ => None end
  end.
Definition as_vec {B} (f : value -> option B) (v : value) : option (seq B) :=
  if v is VVec vs then all_some f vs else None.

Definition of_outcome {A} (o : outcome A) : option A := if o is Ret a then Some a else None.

Local Notation "x <-? m ;; k" := (match m with Some x => k | None => None end)
  (at level 61, m at next level, right associativity).

(** [Matrix::new(n_rows, n_cols, elements)] and its newtypes *)
Definition call_new (k : kind) (vs : seq value) : option value :=
  if vs is [:: r; c; es] then
    nr <-? usize_lit r ;; nc <-? usize_lit c ;; els <-? as_vec as_field es ;;
    m <-? of_outcome (mnew nr nc (nr * nc) els) ;; Some (VMat k m)
  else None.

(** the field of a struct literal *)
Fixpoint field (x : string) (fs : seq (bytes * value)) : option value :=
  match fs with
  | [::] => None
  | (y, v) :: fs' => if y == str x then Some v else field x fs'
  end.

Section Scope.
(** the imported names and the type parameter of the function *)
Variables (imported : seq bytes) (g : bytes).

Definition call (p : seq bytes) (vs : seq value) : option value :=
  if p is [:: ty; f] then
    if ty == g then
      if f == str "from_str" then (if vs is [:: VString s] then Some (VResult (from_str s)) else None) else None
    else if ty \notin imported then None
    else if f == str "new" then
      if str "MatrixOperations" \notin imported then None
      else if ty == str "Matrix" then call_new KMatrix vs
      else if ty == str "SquareMatrix" then call_new KSquare vs
      else if ty == str "ArcMatrix" then call_new KArc vs
      else if ty == str "OptimizedArcMatrix" then call_new KOptArc vs
      else None
    else if (ty == str "MdsMatrix") && (f == str "from_elements") then
      if vs is [:: es] then
        els <-? as_vec as_field es ;; m <-? of_outcome (from_vec els) ;; Some (VMat KMds m)
      else None
    else if (ty == str "Alpha") && (f == str "Exponent") then
      if vs is [:: e] then n <-? u32_lit e ;; Some (VAlpha (Exponent n)) else None
    else None
  else None.

Definition constant (p : seq bytes) : option value :=
  if (p == [:: str "Alpha"; str "Inverse"]) && (str "Alpha" \in imported)
  then Some (VAlpha Inverse) else None.

Definition method (v : value) (m : bytes) (vs : seq value) : option value :=
  if m == str "map_err" then
    match v, vs with VResult r, [:: VClosure] => Some (VResult r) | _, _ => None end
  else if m == str "unwrap" then
    match v, vs with VResult (Some x), [::] => Some (VField x) | _, _ => None end
  else None.

(** A struct literal names every field once. *)
Definition struct (p : seq bytes) (fs : seq (bytes * value)) : option value :=
  if p is [:: ty] then
    if (ty \notin imported) || ~~ uniq (map fst fs) then None
    else if (ty == str "RoundNumbers") && (size fs == 2) then
      a <-? field "r_P" fs ;; r_P <-? usize_lit a ;;
      b <-? field "r_F" fs ;; r_F <-? usize_lit b ;;
      Some (VRounds (RoundNumbers r_P r_F))
    else if (ty == str "OptimizedMdsMatrices") && (size fs == 11) then
      a <-? field "M_hat" fs ;; M_hat <-? as_mat KSquare a ;;
      a <-? field "v" fs ;; v <-? as_mat KMatrix a ;;
      a <-? field "w" fs ;; w <-? as_mat KMatrix a ;;
      a <-? field "M_prime" fs ;; M_prime <-? as_mat KSquare a ;;
      a <-? field "M_doubleprime" fs ;; M_doubleprime <-? as_mat KSquare a ;;
      a <-? field "M_inverse" fs ;; M_inverse <-? as_mat KSquare a ;;
      a <-? field "M_hat_inverse" fs ;; M_hat_inverse <-? as_mat KSquare a ;;
      a <-? field "M_00" fs ;; M_00 <-? as_field a ;;
      a <-? field "M_i" fs ;; M_i <-? as_mat KMatrix a ;;
      a <-? field "v_collection" fs ;; v_collection <-? as_vec (as_mat KMatrix) a ;;
      a <-? field "w_hat_collection" fs ;; w_hat_collection <-? as_vec (as_mat KMatrix) a ;;
      Some (VOpt (OptimizedMds M_hat v w M_prime M_doubleprime M_inverse M_hat_inverse
                               M_00 M_i v_collection w_hat_collection))
    else if (ty == str "PoseidonParameters") && (size fs == 8) then
      a <-? field "M" fs ;; M <-? usize_lit a ;;
      a <-? field "t" fs ;; t <-? usize_lit a ;;
      a <-? field "arc" fs ;; arc <-? as_mat KArc a ;;
      a <-? field "mds" fs ;; mds <-? as_mat KMds a ;;
      a <-? field "alpha" fs ;; alpha <-? as_alpha a ;;
      a <-? field "rounds" fs ;; rounds <-? as_rounds a ;;
      a <-? field "optimized_mds" fs ;; optimized_mds <-? as_opt a ;;
      a <-? field "optimized_arc" fs ;; optimized_arc <-? as_mat KOptArc a ;;
      Some (VParams (Params t t.-1 M alpha rounds mds arc optimized_arc optimized_mds))
    else None
  else None.

Fixpoint eval (e : expr) : option value :=
  match e with
  | ENum s => Some (VInt (decimal s))
  | EStr s => Some (VString s)
  | EPath p => constant p
  | ECall p es => vs <-? all_some eval es ;; call p vs
  | EStruct p fs =>
      vs <-? all_some (fun f => v <-? eval f.2 ;; Some (f.1, v)) fs ;; struct p vs
  | EVec es => vs <-? all_some eval es ;; Some (VVec vs)
  | EMethod e m es => v <-? eval e ;; vs <-? all_some eval es ;; method v m vs
  | EClosure x e => if e is EUnit then Some VClosure else None
  | EUnit => Some VUnit
  end.
End Scope.

(** * Running a parameter file *)

(** What the crates named in [use] declarations export. *)
Definition exports (path : seq bytes) : seq bytes :=
  if path == [:: str "ark_ff"] then [:: str "PrimeField"]
  else if path == [:: str "poseidon_parameters"; str "v1"] then
    [:: str "Alpha"; str "ArcMatrix"; str "Matrix"; str "MatrixOperations"; str "MdsMatrix";
        str "OptimizedArcMatrix"; str "OptimizedMdsMatrices"; str "PoseidonParameters";
        str "RoundNumbers"; str "SquareMatrix"]
  else [::].

Definition uses_ok (prog : seq item) : bool :=
  all (fun i => if i is IUse path xs then all (mem (exports path)) xs else true) prog.

Definition imports (prog : seq item) : seq bytes :=
  flatten [seq if i is IUse _ xs then xs else [::] | i <- prog].

Definition fn_names (prog : seq item) : seq bytes :=
  flatten [seq if i is IFn f _ _ _ _ _ then [:: f] else [::] | i <- prog].

(** [prog::name::<F>()]: the function must be the only one of its name, return
    [PoseidonParameters<F>] for its type parameter [F: PrimeField], and the
    traits and types it mentions must be imported. *)
Fixpoint run_fn (imported : seq bytes) (prog : seq item) (name : bytes) : option (params PF) :=
  match prog with
  | [::] => None
  | IFn f g b r g' e :: prog' =>
      if f == name then
        if [&& b == str "PrimeField", b \in imported, r == str "PoseidonParameters", r \in imported & g == g']
        then (if eval imported g e is Some (VParams P) then Some P else None)
        else None
      else run_fn imported prog' name
  | _ :: prog' => run_fn imported prog' name
  end.

Definition run_file (s : bytes) (name : bytes) : option (params PF) :=
  if parse_file s is Some prog then
    if [&& uses_ok prog, uniq (imports prog) & uniq (fn_names prog)] then run_fn (imports prog) prog name else None
  else None.
End Values.
