(** * What data moves, near and real-mode far transfers, ENTER and ARPL should do *)

From Coq Require Import ZArith Bool List.
From Verif Require Import HostModel AluModel AluSpec StackModel StackSpec MoveModel.
Import ListNotations.
Local Open Scope Z_scope.

(** ** Moves *)

Definition mov_dst (f : movform) : rm :=
  match f with
  | MvStore d _ | MvImm d _ => d
  | MvLoad d _ => RmReg d
  | MvLoadOffs _ => RmReg acc
  | MvStoreOffs m => RmMem m
  end.

Definition mov_value (f : movform) (w : width) (s : hst) : Z :=
  match f with
  | MvStore _ g => read_gop w g (ctx s)
  | MvLoad _ o => read_rm w o s
  | MvLoadOffs m => read_rm w (RmMem m) s
  | MvStoreOffs _ => read_gop w acc (ctx s)
  | MvImm _ v => v mod modulus w
  end.

(** a load reads its source, a store writes its destination; nothing else is
    accessed *)
Definition mov_acc (f : movform) (w : width) (c : gctx) : list (bool * Z * Z) :=
  match f with
  | MvLoad _ o => rm_acc false w o c
  | MvLoadOffs m => rm_acc false w (RmMem m) c
  | _ => rm_acc true w (mov_dst f) c
  end.

Definition mov_ok (f : movform) (c : gctx) : Prop :=
  match f with
  | MvStore o _ | MvLoad _ o | MvImm o _ => rm_ok o c
  | MvLoadOffs m | MvStoreOffs m => memop_ok m c
  end.

(** the offset of a memory operand inside its segment *)
Definition offset (m : memop) (c : gctx) : Z :=
  match m with
  | MOffs a32 disp _ _ => disp mod (if a32 then 2 ^ 32 else 2 ^ 16)
  | MRm a32 base index disp mod1 _ _ =>
      let b := match base with Some r => gprs c r | None => 0 end in
      let i := match index with Some (r, sc) => gprs c r * 2 ^ sc | None => 0 end in
      let d := match disp with
               | Some d => if mod1 then signed W8 (d mod 256) else d | None => 0 end in
      (b + i + d) mod (if a32 then 2 ^ 32 else 2 ^ 16)
  end.

(** decoding guarantees a scale of 0..3 *)
Definition scale_ok (m : memop) : Prop :=
  match m with MRm _ _ (Some (_, sc)) _ _ _ _ => 0 <= sc <= 3 | _ => True end.

(** the selector of a segment register *)
Definition selector (c : gctx) (r : sreg) : Z := gsel c r mod 2 ^ 16.

(** ** Leaving the block *)

Record landing := mkland {
  l_regs : greg -> Z; l_mem : Z -> Z; l_ip : Z;
  l_base : sreg -> Z; l_sel : sreg -> Z; l_shadow : bool }.

(** the guest continues at [l_ip] with the given registers, memory and segments
    and all flags as they were *)
Definition lands (s s' : hst) (L : landing) : Prop :=
  (forall r, gprs (ctx s') r = l_regs L r) /\ (forall x, gmem s' x = l_mem L x) /\
  eip (ctx s') mod 2 ^ 32 = l_ip L mod 2 ^ 32 /\
  (forall r, segb (ctx s') r mod 2 ^ 32 = l_base L r mod 2 ^ 32) /\
  (forall r, gsel (ctx s') r mod 2 ^ 16 = l_sel L r mod 2 ^ 16) /\
  masked s' = l_shadow L /\ cr4 (ctx s') = cr4 (ctx s) /\ ctx_ok (ctx s') /\
  read_eflags (ctx s') = read_eflags (ctx s).

(** as [does], for an instruction that ends the block *)
Definition transfers (E : henv) (l : list instr) (s : hst) (acc : list (bool * Z * Z)) (L : landing) : Prop :=
  match first_bad E acc with
  | Some (wr, a, n) => exists s', run E l s = Fault wr a n s' /\ untouched s s'
  | None => exists s', run E l s = Left s' /\ lands s s' L
  end.

(** segments with one of them loaded as outside protected mode *)
Definition put_seg {A} (r : sreg) (v : A) (f : sreg -> A) : sreg -> A :=
  fun x => if sreg_eqb x r then v else f x.

(** staying in the segment: registers, memory and instruction pointer change *)
Definition near (s : hst) (regs : greg -> Z) (mem : Z -> Z) (ip : Z) : landing :=
  mkland regs mem ip (segb (ctx s)) (gsel (ctx s)) (masked s).
(** going to [sel]:[ip] in real or virtual-8086 mode *)
Definition far (s : hst) (regs : greg -> Z) (mem : Z -> Z) (sel ip : Z) : landing :=
  mkland regs mem ip (put_seg CS (16 * sel) (segb (ctx s))) (put_seg CS sel (gsel (ctx s))) (masked s).
(** loading [sel] in segment register [r] in real or virtual-8086 mode *)
Definition loads (s : hst) (r : sreg) (sel : Z) (regs : greg -> Z) (nxt : Z) (shadow : bool) : landing :=
  mkland regs (gmem s) nxt (put_seg r (16 * sel) (segb (ctx s))) (put_seg r sel (gsel (ctx s))) (masked s || shadow).

(** the stack pointer moved by [d] *)
Definition moved (k : stk) (d : Z) (c : gctx) : greg -> Z := set_sp k (sp_off k d c) (gprs c).

(** the value at the top of the stack, and [d] bytes above it *)
Definition top_of (k : stk) (d : Z) (s : hst) : Z := mload (gmem s) (k_w k) (slot k d (ctx s)).

Definition released (imm : option Z) : Z := match imm with Some n => n | None => 0 end.

(** the far pointer at [a]: an offset of the operand size, then a selector *)
Definition far_acc (w : width) (a : Z) : list (bool * Z * Z) :=
  [(false, a, wbytes w); (false, (a + wbytes w) mod 2 ^ 32, 2)].
Definition far_off (w : width) (a : Z) (s : hst) : Z := mload (gmem s) w a.
Definition far_sel (w : width) (a : Z) (s : hst) : Z := mload (gmem s) W16 ((a + wbytes w) mod 2 ^ 32).

(** the two words a far CALL pushes *)
Definition far_frame (k : stk) (cs ret : Z) (s : hst) : Z -> Z :=
  mstore (mstore (gmem s) (k_w k) (slot k (- k_n k) (ctx s)) (cs mod modulus (k_w k)))
    (k_w k) (slot k (-2 * k_n k) (ctx s)) (ret mod modulus (k_w k)).

(** what a far CALL stores, in order *)
Definition call_acc (k : stk) (c : gctx) : list (bool * Z * Z) :=
  [(true, slot k (- k_n k) c, k_n k); (true, slot k (-2 * k_n k) c, k_n k)].
(** the second push does not fault after the first has succeeded *)
Definition frame_whole (E : henv) (k : stk) (c : gctx) : Prop :=
  e_fault E true (slot k (- k_n k) c) (k_n k) = true \/ e_fault E true (slot k (-2 * k_n k) c) (k_n k) = false.

(** the callee has put the stack pointer back and has not overwritten the [n]
    words it was given *)
Definition kept (k : stk) (n : nat) (s1 s2 : hst) : Prop :=
  gprs (ctx s2) ESP = gprs (ctx s1) ESP /\ segb (ctx s2) SS mod 2 ^ 32 = segb (ctx s1) SS mod 2 ^ 32 /\
  forall i, 0 <= i < Z.of_nat n -> top_of k (k_n k * i) s2 = top_of k (k_n k * i) s1.

(** ** ENTER *)

(** the word of the enclosing frame's display with index [i] *)
Definition display_slot (k : stk) (i : Z) (c : gctx) : Z :=
  (segb c SS + (gprs c EBP - k_n k * i) mod (if k_ss32 k then 2 ^ 32 else 2 ^ 16)) mod 2 ^ 32.

(** the stack pointer after the first push, which becomes the frame pointer *)
Definition frame_ptr (k : stk) (c : gctx) : Z := moved k (- k_n k) c ESP mod modulus (k_w k).

(** copying [n] words of the display, from index [i], to the slots below [d] *)
Fixpoint display_mem (k : stk) (n : nat) (i d : Z) (c : gctx) (m : Z -> Z) : Z -> Z :=
  match n with
  | O => m
  | S n => display_mem k n (i + 1) (d - k_n k) c
             (mstore m (k_w k) (slot k (d - k_n k) c) (mload m (k_w k) (display_slot k i c)))
  end.
Fixpoint display_acc (k : stk) (n : nat) (i d : Z) (c : gctx) : list (bool * Z * Z) :=
  match n with
  | O => []
  | S n => (false, display_slot k i c, k_n k) :: (true, slot k (d - k_n k) c, k_n k)
             :: display_acc k n (i + 1) (d - k_n k) c
  end.

(** nesting level: five bits *)
Definition level_of (level : Z) : Z := level mod 32.

Definition enter_mem (k : stk) (level : Z) (s : hst) : Z -> Z :=
  let c := ctx s in
  let lv := level_of level in
  let m1 := mstore (gmem s) (k_w k) (slot k (- k_n k) c) (gget (k_w k) false EBP (gprs c)) in
  if lv =? 0 then m1 else
  mstore (display_mem k (Z.to_nat (lv - 1)) 1 (- k_n k) c m1) (k_w k) (slot k (- k_n k * (lv + 1)) c) (frame_ptr k c).

(** in order: the old frame pointer, the display, the new frame pointer, and the
    word at the final stack pointer, which must be writable *)
Definition enter_acc (k : stk) (size level : Z) (c : gctx) : list (bool * Z * Z) :=
  let lv := level_of level in
  [(true, slot k (- k_n k) c, k_n k)] ++
  (if lv =? 0 then [] else
     display_acc k (Z.to_nat (lv - 1)) 1 (- k_n k) c ++ [(true, slot k (- k_n k * (lv + 1)) c, k_n k)]) ++
  [(true, slot k (- k_n k * (lv + 1) - size) c, k_n k)].

Definition enter_regs (k : stk) (size level : Z) (c : gctx) : greg -> Z :=
  gput (k_w k) false EBP (frame_ptr k c) (moved k (- k_n k * (level_of level + 1) - size) c).

(** the display words can be addressed without wrapping at 64K, which a 16-bit
    stack needs *)
Definition display_reach (k : stk) (i : Z) (c : gctx) : Prop := k_ss32 k = true \/ k_n k * i <= gprs c EBP mod 2 ^ 16.

(** ** ARPL *)

(** the requested privilege level of the destination is raised to that of the
    source; ZF tells whether it was *)
Definition rpl (sel : Z) : Z := sel mod 4.
Definition arpl_adjusts (d s : Z) : bool := rpl d <? rpl s.
Definition arpl_value (d s : Z) : Z := d - rpl d + rpl s.
(** the destination is written only when it is adjusted *)
Definition arpl_acc (dst : rm) (adj : bool) (c : gctx) : list (bool * Z * Z) :=
  rm_acc false W16 dst c ++ (if adj then rm_acc true W16 dst c else []).
