(** Meaning of the C text the two exporters write
    (green_tsetlin/writers/simple_c.py, topographical_c.py).

    The exported file is read as text: the fixed parts (include guard, header
    of predict_tm, the final loop) must occur literally and are given the
    meaning C gives them; the statements between them are parsed from the
    characters by a recursive descent parser and executed.  Text outside this
    subset has no meaning ([None]), in particular "if(){": an if needs a
    condition. *)
From Coq Require Import String Ascii DecimalString Decimal.
From Coq Require Import ZArith List Bool Lia.
From Verif Require Import Base.
Import ListNotations.
Open Scope Z_scope.

Definition text := list ascii.
Definition tx (s : string) : text := list_ascii_of_string s.

Definition newline : ascii := "010"%char.
(** Text of a line: [s] followed by a newline. *)
Definition ln (s : string) : text := tx s ++ [newline].

(** ** Abstract syntax of the statements *)

Inductive ccond :=
| CPos (k : nat)      (* x[k] > 0 *)
| CZero (k : nat).    (* x[k] == 0 *)

Inductive cstmt :=
| SIf (conds : list ccond) (body : list cstmt)
| SAdd (k : nat) (w : Z).      (* votes[k] += w; *)

(** ** Parser *)

Fixpoint expect (p t : text) : option text :=
  match p, t with
  | [], _ => Some t
  | a :: p', b :: t' => if Ascii.eqb a b then expect p' t' else None
  | _ :: _, [] => None
  end.

(** White space between statements: blank and newline. *)
Definition is_ws (c : ascii) : bool := Ascii.eqb c " "%char || Ascii.eqb c newline.
Fixpoint skip_ws (t : text) : text :=
  match t with
  | c :: t' => if is_ws c then skip_ws t' else t
  | [] => []
  end.

Definition is_digit (c : ascii) : bool :=
  let n := nat_of_ascii c in (Nat.leb 48 n && Nat.leb n 57).

(** Longest prefix of digits. *)
Fixpoint span_digits (t : text) : text * text :=
  match t with
  | c :: t' => if is_digit c then let '(a, b) := span_digits t' in (c :: a, b) else ([], t)
  | [] => ([], [])
  end.

(** A decimal constant: digits without a leading zero (a leading zero would
    make it octal in C). *)
Definition parse_nat (t : text) : option (nat * text) :=
  let '(ds, r) := span_digits t in
  match NilZero.uint_of_string (string_of_list_ascii ds) with
  | Some d => if uint_beq (unorm d) d then Some (Nat.of_uint d, r) else None
  | None => None
  end.

(** A decimal constant with optional minus sign. *)
Definition parse_int (t : text) : option (Z * text) :=
  match t with
  | c :: t' => if Ascii.eqb c "-"%char
               then match parse_nat t' with Some (n, r) => Some (- Z.of_nat n, r) | None => None end
               else match parse_nat t with Some (n, r) => Some (Z.of_nat n, r) | None => None end
  | [] => None
  end.

(** x[k] > 0   or   x[k] == 0 *)
Definition parse_cond (t : text) : option (ccond * text) :=
  match expect (tx "x[") t with
  | None => None
  | Some t =>
      match parse_nat t with
      | None => None
      | Some (k, t) =>
          match expect (tx "] > 0") t with
          | Some t => Some (CPos k, t)
          | None => match expect (tx "] == 0") t with
                    | Some t => Some (CZero k, t)
                    | None => None
                    end
          end
      end
  end.

(** cond && cond && ... (at least one) *)
Fixpoint parse_conds (fuel : nat) (t : text) : option (list ccond * text) :=
  match fuel with
  | O => None
  | S f =>
      match parse_cond t with
      | None => None
      | Some (c, t) =>
          match expect (tx " && ") t with
          | None => Some ([c], t)
          | Some t => match parse_conds f t with
                      | Some (cs, t) => Some (c :: cs, t)
                      | None => None
                      end
          end
      end
  end.

(** A sequence of statements; stops before the first text that starts neither
    statement.  [fuel] only bounds the recursion; the length of the text is
    always enough. *)
Fixpoint parse_stmts (fuel : nat) (t : text) : option (list cstmt * text) :=
  match fuel with
  | O => None
  | S f =>
      let t := skip_ws t in
      match expect (tx "if(") t with
      | Some t =>
          match parse_conds f t with
          | None => None
          | Some (cs, t) =>
              match expect (tx "){") t with
              | None => None
              | Some t =>
                  match parse_stmts f t with
                  | None => None
                  | Some (body, t) =>
                      match expect (tx "}") t with
                      | None => None
                      | Some t => match parse_stmts f t with
                                  | None => None
                                  | Some (ss, t) => Some (SIf cs body :: ss, t)
                                  end
                      end
                  end
              end
          end
      | None =>
          match expect (tx "votes[") t with
          | Some t =>
              match parse_nat t with
              | None => None
              | Some (k, t) =>
                  match expect (tx "] += ") t with
                  | None => None
                  | Some t =>
                      match parse_int t with
                      | None => None
                      | Some (w, t) =>
                          match expect (tx ";") t with
                          | None => None
                          | Some t => match parse_stmts f t with
                                      | None => None
                                      | Some (ss, t) => Some (SAdd k w :: ss, t)
                                      end
                          end
                      end
                  end
              end
          | None => Some ([], t)
          end
      end
  end.

(** ** Execution *)

(** x is uint8_t*; reading outside the example is undefined and does not occur
    in the theorems. *)
Definition cond_true (x : list Z) (c : ccond) : bool :=
  match c with
  | CPos k => nth k x 0 >? 0
  | CZero k => nth k x 0 =? 0
  end.

(** votes is an int16_t array: the sum is converted back on assignment. *)
Fixpoint run_stmt (x : list Z) (s : cstmt) (votes : list Z) : list Z :=
  match s with
  | SIf cs body =>
      if forallb (cond_true x) cs
      then (fix seq_run (ss : list cstmt) (v : list Z) : list Z :=
              match ss with [] => v | s' :: r => seq_run r (run_stmt x s' v) end) body votes
      else votes
  | SAdd k w => set_nth k (wrap16 (nth k votes 0 + w)) votes
  end.
Fixpoint run_stmts (x : list Z) (ss : list cstmt) (votes : list Z) : list Z :=
  match ss with
  | [] => votes
  | s :: r => run_stmts x r (run_stmt x s votes)
  end.

(** int output_class = 0; int16_t most_votes = votes[0];
    for(int i = 1; i < NUM_CLASSES; ++i) if(votes[i] > most_votes) {...} *)
Definition find_output (ncls : nat) (votes : list Z) : nat :=
  fst (fold_left (fun (st : nat * Z) i =>
                    if nth i votes 0 >? snd st then (i, nth i votes 0) else st)
                 (seq 1 (ncls - 1)) (O, nth 0 votes 0)).

(** ** The whole file *)

Definition c_guard (name : string) : text :=
  tx "#ifndef __" ++ tx name ++ ln "_OUTPUT__H_" ++ tx "#define __" ++ tx name ++ ln "_OUTPUT__H_".

Definition c_head1 : text :=
  ln "#include <inttypes.h>" ++ ln "#include <string.h>" ++ [newline] ++ tx "#define NUM_CLASSES ".
Definition c_head2 : text :=
  [newline] ++ ln "#define DEFAULT_OUTPUT 0" ++
  ln "int predict_tm(uint8_t* x)" ++ ln "{" ++
  ln "    static int16_t votes[NUM_CLASSES] = {0};" ++
  ln "    memset(votes, 0, sizeof(votes));" ++ [newline] ++ [newline] ++
  [newline] ++ ln "// start clauses".

Definition c_tail : text :=
  ln "int output_class = DEFAULT_OUTPUT;" ++
  ln "int16_t most_votes = votes[DEFAULT_OUTPUT];" ++
  ln "for(int i = 1; i < NUM_CLASSES; ++i)" ++ ln "{" ++
  ln "    if(votes[i] > most_votes)" ++ ln "    {" ++
  ln "        most_votes = votes[i];" ++ ln "        output_class = i;" ++ ln "    }" ++
  ln "}" ++ ln "    return output_class;" ++ ln "}".

Definition c_end (name : string) : text := [newline] ++ tx "#endif // #ifndef __" ++ tx name ++ ln "_OUTPUT__H_".

Definition opt_bind {A B} (o : option A) (f : A -> option B) : option B :=
  match o with Some a => f a | None => None end.

(** [c_votes name comment t x]: NUM_CLASSES and the array votes before the
    final loop when predict_tm(x) of the file with text [t] runs, [None] if the
    text is not a program of the subset.  [name] is the include guard,
    [comment] the comment line below it. *)
Definition c_votes (name comment : string) (t : text) (x : list Z) : option (nat * list Z) :=
  opt_bind (expect (c_guard name ++ ln comment ++ [newline] ++ c_head1) t) (fun t =>
  opt_bind (parse_nat t) (fun '(ncls, t) =>
  opt_bind (expect c_head2 t) (fun t =>
  opt_bind (parse_stmts (S (length t)) t) (fun '(ss, t) =>
  opt_bind (expect (c_tail ++ c_end name) t) (fun t =>
  match t with
  | [] => if (1 <=? ncls)%nat then Some (ncls, run_stmts x ss (repeat 0 ncls)) else None
  | _ => None
  end))))).

(** The value predict_tm(x) returns. *)
Definition run_c (name comment : string) (t : text) (x : list Z) : option nat :=
  match c_votes name comment t x with
  | Some (ncls, votes) => Some (find_output ncls votes)
  | None => None
  end.
