(** Vocabulary for the properties of the backend registry. *)
From Coq Require Import String Ascii ZArith List Bool.
From Verif Require Import Base ModelMachine ModelTrainer ModelPredictor ModelRegistry.
Import ListNotations.
Open Scope string_scope.
Open Scope Z_scope.

(** Intel SDM, CPUID: AVX2 is bit 5 of EBX of leaf 7 (sub-leaf 0), when the
    largest leaf, EAX of leaf 0, is at least 7. *)
Definition avx2_present (p : cpu) : Prop := 7 <= r_eax (p 0) /\ Z.testbit (r_ebx (p 7)) 5 = true.

(** Four characters as a little-endian 32-bit word. *)
Definition code (a : ascii) : Z := Z.of_nat (nat_of_ascii a).
Definition word (a b c d : ascii) : Z := code a + 256 * code b + 65536 * code c + 16777216 * code d.
(** Leaf 0 spells the vendor's name in EBX, EDX, ECX. *)
Definition intel (p : cpu) : Prop :=
  r_ebx (p 0) = word "G" "e" "n" "u" /\ r_edx (p 0) = word "i" "n" "e" "I" /\ r_ecx (p 0) = word "n" "t" "e" "l".
Definition amd (p : cpu) : Prop :=
  r_ebx (p 0) = word "A" "u" "t" "h" /\ r_edx (p 0) = word "e" "n" "t" "i" /\ r_ecx (p 0) = word "c" "A" "M" "D".

(** The instruction set of the dense blocks: NEON where the build has it, else
    AVX2 where has_avx2() says so, else none. *)
Definition core_isa (b : build) (p : cpu) : isa :=
  if b_neon b && b_arm b then Neon else if has_avx2 b p then Avx2 else Scalar.

(** The clause-block class that belongs to a machine: its kind and its own flags. *)
Definition class_for (i : isa) (m : mach) : cls :=
  match k_kind m with
  | KDense => CDense i (k_budget m) (k_boost m)
  | KSparse => CSparse (k_budget m) (k_dyn m) (k_boost m)
  | KConv => CConv i
  end.

(** The inference class that belongs to an explanation mode. *)
Definition inference_for (x : xmode) (exclude : bool) : cls :=
  match x with
  | XNone => CInf false false false
  | XLiterals => CInf false true exclude
  | XFeatures => CInf true false exclude
  | XBoth => CInf true true exclude
  | XOther => CInf false false false
  end.

(** The worlds a program can reach after importing the package. *)
Definition reached (core : option (build * cpu)) (w : world) : Prop :=
  exists r p os, import_backend core = Ok r /\ steps p (start r) = (os, w).

(** Trainer [t] of world [w] with its machine. *)
Definition trainer_at (w : world) (t : nat) (tr : rtrainer) (m : mach) : Prop :=
  nth_error (w_trainers w) t = Some tr /\ nth_error (w_machs w) (rt_m tr) = Some m.

(** Train and evaluation data of the trainer are both csr matrices / arrays. *)
Definition has_data (k : xkind) (tr : rtrainer) : Prop :=
  exists a b, rt_train tr = Some a /\ rt_eval tr = Some b /\ x_kind (d_x a) = k /\ x_kind (d_x b) = k.

(** The documented combinations of feedback type and labels. *)
Definition feedback_ok (m : mach) (tr : rtrainer) : Prop :=
  rt_fb tr = FFocused \/ (rt_fb tr = FUniform /\ k_multi m = false).

(** The calls [p] train no sparse machine other than number [i] (machine kinds
    and trainers as they are in the final world [w]). *)
Definition quiet (w : world) (p : list action) (i : nat) : Prop :=
  forall t tr m, In (ATrain t) p -> trainer_at w t tr m -> k_kind m = KSparse -> rt_m tr = i.

(** A sparse machine with trainer [t] works: arrays are refused, and training on
    csr data connects sparse blocks with the machine's flags to a sparse input
    block. *)
Definition sparse_works (w : world) (t : nat) (tr : rtrainer) (m : mach) : Prop :=
  (forall x y, x_kind x = KArray ->
     fst (step (ATrainData t (Some x) y) w) = Raise ValueError
     /\ fst (step (AEvalData t (Some x) y) w) = Raise ValueError)
  /\ (has_data KCsr tr -> feedback_ok m tr ->
      fst (step (ATrain t) w) = Ok (OTrain (CSparse (k_budget m) (k_dyn m) (k_boost m)) CSparseIn)).
