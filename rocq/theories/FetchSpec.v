(** * Specification of instruction fetching (C81, C82, C83) *)

From Coq Require Import ZArith Bool List.
Import ListNotations.
From Verif Require Import FetchModel.
Local Open Scope Z_scope.

(** What the processor does at a linear address: executes an instruction of n bytes, or raises
    an exception (vector, error code, address) *)
Inductive arch := Aok (i : instr) (n : Z) | Aexc (v c a : Z).

(** The bytes are fetched one by one, each through the page tables, until the instruction is
    known; the sixteenth byte raises #GP(0).  [k] bytes are still allowed *)
Fixpoint arun (w : world) (d : decoder) (k : nat) (s : zst d) (a : Z) : arch :=
  match xl w a with
  | Xpf c => Aexc PF_ c a
  | Xok p =>
      match k with
      | O => Aexc GP_ 0 0
      | S k => match znext d s (rd w p) with
               | More s' => arun w d k s' (w32 (a + 1))
               | Done i => Aok i (15 - Z.of_nat k)
               | Bad => Aexc UD_ 0 0
               end
      end
  end.
(** An instruction breakpoint on the first byte comes first, unless RF is set *)
Definition afetch (w : world) (d : decoder) (a : Z) : arch :=
  match hits w a with Some _ => Aexc DB_ 0 0 | None => arun w d 15 (z0 d) a end.

(** A straight run of instructions from address [a]: each is the one the processor fetches at
    its address, the next follows it, only the last may end the block, and an exception is the
    one the processor raises at the address reached *)
Inductive straight (w : world) (d : decoder) : Z -> list (Z * instr * Z) -> tail -> Prop :=
  | st_exc a v c x : afetch w d a = Aexc v c x -> straight w d a [] (Texc v c x)
  | st_term a i n : afetch w d a = Aok i n -> i_term i = true -> straight w d a [(a, i, n)] Tterm
  | st_link a i n : afetch w d a = Aok i n -> i_term i = false -> straight w d a [(a, i, n)] Tlink
  | st_cons a i n l t : afetch w d a = Aok i n -> i_term i = false -> straight w d (w32 (a + n)) l t -> straight w d a ((a, i, n) :: l) t.

(** Pages are translated as a whole, to whole pages *)
Definition paged (w : world) : Prop :=
  forall a b p, 0 <= a < 2 ^ 32 -> 0 <= b < 2 ^ 32 -> page a = page b -> xl w a = Xok p ->
    xl w b = Xok (p + (b - a)) /\ 0 <= p < 2 ^ 32 /\ off p = off a.
(** Code is executed from RAM or ROM whose regions do not end within 15 bytes of the fetch, unless
    they end with the page *)
Definition backed (w : world) : Prop :=
  forall a p, 0 <= a < 2 ^ 32 -> xl w a = Xok p -> Z.min 15 (4096 - off a) <= avail w p.

(** Each instruction starts where the one before it ends *)
Fixpoint in_a_row (a : Z) (l : list (Z * instr * Z)) : Prop :=
  match l with [] => True | (b, _, n) :: tl => b = a /\ 1 <= n <= 15 /\ in_a_row (w32 (a + n)) tl end.

(** The page after the one of [a] can be fetched from *)
Definition next_mapped (w : world) (a : Z) : Prop := exists p, xl w (w32 (a + (4096 - off a))) = Xok p.

(** A listing of instructions from address [a]: each is the one fetched at its address and the
    next one follows it.  [stop]: the listing is only looked at up to an instruction that ends
    with its page *)
Inductive listing (stop : bool) (w : world) (d : decoder) : Z -> list (Z * instr) -> Prop :=
  | li_nil a : listing stop w d a []
  | li_stop a i n l : arun w d 15 (z0 d) a = Aok i n -> stop = true -> off (w32 (a + n)) = 0 -> listing stop w d a ((a, i) :: l)
  | li_cons a i n l : arun w d 15 (z0 d) a = Aok i n -> listing stop w d (w32 (a + n)) l -> listing stop w d a ((a, i) :: l).
