(** Model of src/random_generator.hpp: Wyhash64, XorShift128plus4G (AVX2) and
    Xoshiro128Plus (NEON).  The standard library engines that turn a seed into
    the first state are not modelled: the first state is arbitrary (within the
    ranges of the distributions used). *)
From Coq Require Import ZArith NArith List Bool QArith Lia.
From Verif Require Import Base ModelAvx2.
Import ListNotations.
Open Scope Z_scope.

(** ** Wyhash64 (30-69) *)

Definition wrap64 (z : Z) : Z := z mod 2 ^ 64.

Definition wy_step : Z := 0x60bee2bee120fc15.
Definition wy_k1 : Z := 0xa3b195354a39b70d.
Definition wy_k2 : Z := 0x1b03738712fad5c9.

(** tmp = (__uint128_t) v * k; (uint64_t)((tmp >> 64) ^ tmp)  (48-52). *)
Definition wy_mix (k v : Z) : Z :=
  let tmp := v * k in wrap64 (Z.lxor (Z.shiftr tmp 64) tmp).

(** Conversion of a uint64_t to double: round to nearest, ties to even, 53
    significant bits.  The result is an integer. *)
Definition to_double (m : Z) : Z :=
  if m <? 2 ^ 53 then m
  else
    let e := Z.log2 m - 52 in
    let q := m / 2 ^ e in
    let r := m mod 2 ^ e in
    let h := 2 ^ (e - 1) in
    (if (h <? r) || ((r =? h) && Z.odd q) then q + 1 else q) * 2 ^ e.

(** double r = 0x1.0p-64 * m2 (54): the product with a power of two is exact. *)
Definition wy_value (x : Z) : Q :=
  Qmake (to_double (wy_mix wy_k2 (wy_mix wy_k1 x))) (2 ^ 64)%positive.

(** next_u (45-56): the draw and the new state. *)
Definition wy_next (x : Z) : Q * Z :=
  let x := wrap64 (x + wy_step) in (wy_value x, x).

(** The state after [k] calls. *)
Fixpoint wy_state (x : Z) (k : nat) : Z :=
  match k with
  | O => x
  | S j => wy_state (snd (wy_next x)) j
  end.

(** The generator in state [x], as the streams the clause blocks read. *)
Definition wy_rng (x : Z) : rng := mkRng (fun k => fst (wy_next (wy_state x k))) 0.

(** seed (38-43) after seed_internal (63-68) drew [hi] and [lo]. *)
Definition wy_seed (hi lo : Z) : Z := wy_state (Z.lor (Z.shiftl hi 32) lo) 32.

(** ** 64-bit lanes *)

Open Scope N_scope.

Definition mask64 : N := N.ones 64.
Definition shl64 (k a : N) : N := N.land (N.shiftl a k) mask64.   (* _mm256_slli_epi64, vshlq_n_u64 *)
Definition add64 (a b : N) : N := N.land (a + b) mask64.          (* _mm256_add_epi64 *)

(** The eight bytes of a lane, low byte first, as signed values. *)
Definition lane_bytes (a : N) : list Z :=
  map (fun i => wrap8 (Z.of_N (N.land (N.shiftr a (N.of_nat (8 * i))) 255))) (seq 0 8).
Definition vector_bytes (v : list N) : list Z := concat (map lane_bytes v).

(** ** XorShift128plus4G (73-123): four lanes *)

(** part1, part2. *)
Definition xs_state := (list N * list N)%type.

(** next (87-98), line by line: s1 = part1 is overwritten. *)
Definition xs_next (st : xs_state) : list N * xs_state :=
  let '(part1, part2) := st in
  let s1 := part1 in
  let s0 := part2 in
  let part1 := part2 in
  let s1 := map2 N.lxor part2 (map (shl64 23) part2) in
  let part2 := map2 N.lxor (map2 N.lxor (map2 N.lxor s1 s0) (map (fun a => N.shiftr a 18) s1))
                           (map (fun a => N.shiftr a 5) s0) in
  (map2 add64 part2 s0, (part1, part2)).

Fixpoint xs_after (st : xs_state) (k : nat) : xs_state :=
  match k with
  | O => st
  | S j => xs_after (snd (xs_next st)) j
  end.

(** The stream of vectors from state [st]. *)
Definition xs_vrng (st : xs_state) : vrng :=
  mkVrng (fun k => vector_bytes (fst (xs_next (xs_after st k)))) 0.

(** seed (80-85): 32 vectors are dropped. *)
Definition xs_seeded (st : xs_state) : xs_state := xs_after st 32.

(** ** Xoshiro128Plus (130-213): two lanes *)

(** next (161-173). *)
Definition xo_next (st : xs_state) : list N * xs_state :=
  let '(st0, st1) := st in
  let s1 := st0 in
  let s0 := st1 in
  let st0 := s0 in
  let s1 := map2 N.lxor (map (shl64 23) s1) s1 in
  let st1 := map2 N.lxor (map2 N.lxor s1 s0)
                         (map2 N.lxor (map (fun a => N.shiftr a 18) s1) (map (fun a => N.shiftr a 5) s0)) in
  (map2 add64 st1 s0, (st0, st1)).

Fixpoint xo_after (st : xs_state) (k : nat) : xs_state :=
  match k with
  | O => st
  | S j => xo_after (snd (xo_next st)) j
  end.

(** seed_internal (191-211): both lanes get the same value. *)
Definition xo_init (seed64 : N) : xs_state := ([seed64; seed64], [0x73A2C175221D6A27; 0x73A2C175221D6A27]).
Definition xo_seeded (seed64 : N) : xs_state := xo_after (xo_init seed64) 32.
Definition xo_vrng (st : xs_state) : vrng :=
  mkVrng (fun k => vector_bytes (fst (xo_next (xo_after st k)))) 0.
