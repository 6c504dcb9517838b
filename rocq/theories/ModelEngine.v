(** The engine behind std::default_random_engine (src/feedback_block.hpp:215,
    src/executor.hpp:245, src/aligned_tsetlin_state.hpp:51,
    src/sparse_tsetlin_state.hpp:43) and the distributions drawn from it.

    The source leaves the engine to the library.  Modelled is libstdc++ (up to
    gcc 14): std::minstd_rand0, x := 16807 x mod (2^31-1), the integer distribution by
    rejection, std::generate_canonical<double, 53> from two values.  Exact
    rationals: the code rounds the quotient to a double, which keeps a positive
    number positive, and replaces 1 by the double below it. *)
From Coq Require Import ZArith List Bool QArith Lia.
From Verif Require Import Base.
Import ListNotations.
Open Scope Z_scope.

Definition eng_mod : Z := 2147483647.          (* 2^31 - 1 *)
Definition eng_mult : Z := 16807.
(** Values of a call, min() .. max(). *)
Definition eng_state (x : Z) : Prop := 1 <= x <= 2147483646.

(** operator(): the new state is the value. *)
Definition eng (x : Z) : Z := (eng_mult * x) mod eng_mod.
(** m_rng.seed(seed) (feedback_block.hpp:32, executor.hpp:86, func_tm.hpp:39): the
    argument becomes a 64-bit unsigned number; a state 0 is replaced by 1. *)
Definition eng_seed (seed : Z) : Z :=
  let v := (seed mod 2 ^ 64) mod eng_mod in if v =? 0 then 1 else v.
(** State after [k] calls. *)
Definition eng_after (k : nat) (x : Z) : Z := Nat.iter k eng x.

(** ** uniform_int_distribution(0, n-1), 1 <= n < 2^31 - 2
    (feedback_block.hpp:252, 321; func_tm.hpp:51 up to the offset -1) *)
Definition uni_scaling (n : Z) : Z := 2147483645 / n.
(** The result for the engine value [x]; None = rejected, another is drawn. *)
Definition uni_result (n x : Z) : option Z :=
  if x - 1 <? n * uni_scaling n then Some ((x - 1) / uni_scaling n) else None.

(** A loop of at most [p] steps that ends at the first result; without one the state
    after [p] steps. *)
Fixpoint search {S A : Type} (p : positive) (step : S -> S * option A) (s : S) : S * option A :=
  match p with
  | xH => step s
  | xO q => match search q step s with (s, Some a) => (s, Some a) | (s, None) => search q step s end
  | xI q => match step s with
            | (s, Some a) => (s, Some a)
            | (s, None) => match search q step s with (s, Some a) => (s, Some a) | (s, None) => search q step s end
            end
  end.
(** Number of states of the engine: more steps than that repeat. *)
Definition all_states : positive := 2147483646.

(** One draw of the distribution: "do ret = urng() while(ret >= past)". *)
Definition uni_step (n x : Z) : Z * option Z := let x := eng x in (x, uni_result n x).
Definition uni_draw (n x : Z) : Z * option Z := search all_states (uni_step n) x.
(** Engine state after [k] draws of the distribution, the value of draw [k]. *)
Definition uni_after (n : Z) (k : nat) (x : Z) : Z := Nat.iter k (fun x => fst (uni_draw n x)) x.
Definition uni_value (n : Z) (x : Z) (k : nat) : Z :=
  match snd (uni_draw n (uni_after n k x)) with Some c => c | None => 0 end.
(** "neg = c_gen(rng); while(neg == pos) neg = c_gen(rng)"
    (feedback_block.hpp:254-256, 323-325). *)
Definition other_step (n pos x : Z) : Z * option Z :=
  let '(x, o) := uni_draw n x in
  (x, match o with Some c => if c =? pos then None else Some c | None => None end).
Definition uni_other (n pos x : Z) : Z * option Z := search all_states (other_step n pos) x.

(** The stream for the class draws of ModelFeedback.v. *)
Definition uni_rng (n : nat) (x : Z) : rng :=
  mkRng (fun k => Qmake (uni_value (Z.of_nat n) x k) (Pos.of_nat n)) 0.

(** ** generate_canonical<double, 53>
    (uniform_real_distribution, func_tm.hpp:299, 364; discrete_distribution,
    feedback_block.hpp:108) *)
Definition canon (x1 x2 : Z) : Q := Qmake ((x1 - 1) + (x2 - 1) * 2147483646) (2147483646 * 2147483646).
Definition canon_rng (x : Z) : rng :=
  mkRng (fun k => canon (eng_after (2 * k + 1) x) (eng_after (2 * k + 2) x)) 0.

(** The stream for the initial automata of ModelDense.v (func_tm.hpp:50-59): dist(-1, 0)
    adds -1 to the draw of two values; there a draw <= 1/2 stands for -1. *)
Definition init_rng (x : Z) : rng := mkRng (fun k => inject_Z (uni_value 2 x k)) 0.
