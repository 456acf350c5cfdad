(** * What address translation should do

    Written with div/mod and single bits, from the Intel manual (vol. 3, paging),
    without the helpers of the model except the machine state. *)

From Coq Require Import ZArith Bool List.
From Verif Require Import MmuModel.
Import ListNotations.
Local Open Scope Z_scope.

Notation bit := Z.testbit (only parsing).

Definition paging (s : mmu) : bool := bit (cr0 s) 31.
Definition write_protect (s : mmu) : bool := bit (cr0 s) 16.
Definition large_pages (s : mmu) : bool := bit (cr4 s) 4.
Definition global_pages (s : mmu) : bool := bit (cr4 s) 7.

(** where the directory entry and the table entry of [addr] are *)
Definition pde_at (E : menv) (s : mmu) (addr : Z) : Z :=
  e_correct E (cr3 s / 2 ^ 12 mod 2 ^ 20 * 2 ^ 12 + addr / 2 ^ 22 * 4).
Definition pte_at (E : menv) (s : mmu) (addr : Z) : Z :=
  e_correct E (words s (pde_at E s addr) / 2 ^ 12 mod 2 ^ 20 * 2 ^ 12 + addr / 2 ^ 12 mod 2 ^ 10 * 4).

Inductive walked :=
| Absent
| Large (leaf pa : Z)                 (* 4 MB page: address of the entry, result *)
| Small (leaf pa : Z).                (* 4 KB page *)

Definition walk (E : menv) (s : mmu) (addr : Z) : walked :=
  let pde := words s (pde_at E s addr) in
  if negb (bit pde 0) then Absent
  else if bit pde 7 && large_pages s then
    Large (pde_at E s addr) (pde / 2 ^ 22 mod 2 ^ 10 * 2 ^ 22 + addr mod 2 ^ 22)
  else
    let pte := words s (pte_at E s addr) in
    if negb (bit pte 0) then Absent
    else Small (pte_at E s addr) (pte / 2 ^ 12 mod 2 ^ 20 * 2 ^ 12 + addr mod 2 ^ 12).

(** combined rights of the levels used *)
Definition may_user (E : menv) (s : mmu) (addr : Z) : bool :=
  let pde := words s (pde_at E s addr) in
  match walk E s addr with
  | Absent => false | Large _ _ => bit pde 2 | Small l _ => bit pde 2 && bit (words s l) 2
  end.
Definition may_write (E : menv) (s : mmu) (addr : Z) : bool :=
  let pde := words s (pde_at E s addr) in
  match walk E s addr with
  | Absent => false | Large _ _ => bit pde 1 | Small l _ => bit pde 1 && bit (words s l) 1
  end.

(** an access is made as user when CPL is 3 and it is not a system access *)
Definition as_user (s : mmu) (priv : bool) : bool := (cpl s =? 3) && negb priv.

Definition allowed (E : menv) (s : mmu) (addr : Z) (wr priv : bool) : bool :=
  if as_user s priv then may_user E s addr && (negb wr || may_write E s addr)
  else negb wr || negb (write_protect s) || may_write E s addr.

(** a supervisor-only page whose two levels disagree about writing *)
Definition disagree (E : menv) (s : mmu) (addr : Z) : bool :=
  match walk E s addr with
  | Small l _ => negb (may_user E s addr) &&
                 xorb (bit (words s (pde_at E s addr)) 1) (bit (words s l) 1)
  | _ => false
  end.

Definition flags_of (wr priv code : bool) : Z :=
  (if wr then 1 else 0) + (if priv then 2 else 0) + (if code then 16 else 0).

(** the error code of a page fault *)
Definition pf_code (present wr user : bool) : Z :=
  (if present then 1 else 0) + (if wr then 2 else 0) + (if user then 4 else 0).

(** the entries with the Accessed and Dirty bits a translation sets *)
Definition touched (E : menv) (s : mmu) (addr : Z) (wr : bool) (x : Z) : Z :=
  let leaf_bits := if wr then 96 else 32 in
  match walk E s addr with
  | Absent => words s x
  | Large l _ => if x =? l then Z.lor (words s x) leaf_bits else words s x
  | Small l _ =>
      let v := if x =? pde_at E s addr then Z.lor (words s x) 32 else words s x in
      if x =? l then Z.lor v leaf_bits else v
  end.

(** correction of physical addresses works page by page *)
Definition uniform (E : menv) : Prop :=
  forall p, 0 <= p < 2 ^ 32 ->
    0 <= e_correct E p < 2 ^ 32 /\
    e_correct E p = e_correct E (p / 2 ^ 12 * 2 ^ 12) / 2 ^ 12 * 2 ^ 12 + p mod 2 ^ 12.

(** where an access to [addr] goes, if it is allowed (no TLB involved) *)
Definition target (E : menv) (s : mmu) (addr : Z) : option Z :=
  if paging s then
    match walk E s addr with Absent => None | Large _ p | Small _ p => Some (e_correct E p) end
  else Some (e_correct E addr).

(** the leaf entry of a page is marked dirty *)
Definition dirty (E : menv) (s : mmu) (addr : Z) : bool :=
  match walk E s addr with Absent => false | Large l _ | Small l _ => bit (words s l) 6 end.

(** what the page tables say about an access, whatever the rest of the machine *)
Definition present (E : menv) (s : mmu) (addr : Z) : bool :=
  match walk E s addr with Absent => false | _ => true end.
Definition permits (E : menv) (s : mmu) (addr : Z) (wr priv : bool) : bool :=
  negb (paging s) || (present E s addr && allowed E s addr wr priv).
Definition agreeing (E : menv) (s : mmu) (addr : Z) : Prop := paging s = true -> disagree E s addr = false.

(** ** Accesses *)

(** address of byte [i] of an access, and whether the access fits in one page *)
Definition byte_of (addr i : Z) : Z := (addr + i) mod 2 ^ 32.
Definition single (addr size : Z) : bool := addr mod 2 ^ 12 + size <=? 2 ^ 12.

(** the access used, for each byte, the physical address a page walk made now
    (and leaving no trace) gives, and each walk allows it *)
Definition agree (E : menv) (s : mmu) (addr size : Z) (wr priv : bool) (bytes : list Z) : Prop :=
  Z.of_nat (length bytes) = size /\
  forall i, 0 <= i < size ->
    exists info, mmu_translate false false E (byte_of addr i) (flags_of wr priv false) s
                 = XOk (nth (Z.to_nat i) bytes 0) info s.

(** ** Histories of accesses *)

Inductive mop :=
| GuestRead (addr size : Z) (priv : bool)
| GuestWrite (addr size : Z) (priv : bool)
| Fetch (addr : Z)
| HostRead (addr : Z) (priv : bool)
| HostWrite (addr : Z) (priv : bool)
| Invlpg (addr : Z)
| SetCpl (v : Z)
| SetCr0 (v : Z)
| SetCr3 (v : Z)
| SetCr4 (v : Z)
| Remap (w : Z -> Z).                  (* new page tables, then a full flush *)

Definition xst (r : xres) : mmu := match r with XOk _ _ s => s | XFault _ _ s => s end.
Definition ast (r : ares) : mmu := match r with AOk _ s => s | AFault _ _ s => s end.
Definition p2 (priv : bool) : Z := if priv then 2 else 0.

Definition mstep (E : menv) (s : mmu) (o : mop) : mmu :=
  match o with
  | GuestRead a n p => ast (guest_read E a n (p2 p) s)
  | GuestWrite a n p => ast (guest_write E a n (p2 p) s)
  | Fetch a => xst (get_code_addr E a s)
  | HostRead a p => xst (get_read_addr E a (p2 p) s)
  | HostWrite a p => xst (get_write_addr E a (p2 p) s)
  | Invlpg a => tlb_invalidate a s
  | SetCpl v => set_cpl v s
  | SetCr0 v => write_cr0 v s
  | SetCr3 v => write_cr3 v s
  | SetCr4 v => write_cr4 v s
  | Remap w => tlb_flush_all (set_words w s)
  end.

(** operands are 32-bit; loading CR3 while global pages are on keeps the
    translation of every global page (what the manual asks of software) *)
Definition global_leaf (E : menv) (s : mmu) (addr : Z) : bool :=
  match walk E s addr with Absent => false | Large l _ | Small l _ => bit (words s l) 8 end.
Definition same_page_map (E : menv) (s s' : mmu) (addr : Z) : Prop :=
  walk E s' addr = walk E s addr /\
  words s (pde_at E s addr) = words s (pde_at E s' addr).
Definition mop_ok (E : menv) (s : mmu) (o : mop) : Prop :=
  match o with
  | GuestRead a n _ | GuestWrite a n _ => 0 <= a < 2 ^ 32 /\ 1 <= n <= 4096
  | Fetch a | HostRead a _ | HostWrite a _ | Invlpg a => 0 <= a < 2 ^ 32
  | SetCpl v => 0 <= v <= 3
  | SetCr0 v | SetCr4 v => 0 <= v < 2 ^ 32
  | SetCr3 v => 0 <= v < 2 ^ 32 /\
      forall a, 0 <= a < 2 ^ 32 -> global_pages s = true -> global_leaf E s a = true ->
        same_page_map E s (write_cr3 v s) a
  | Remap w => True
  end.
Fixpoint hist_ok (E : menv) (s : mmu) (l : list mop) : Prop :=
  match l with [] => True | o :: tl => mop_ok E s o /\ hist_ok E (mstep E s o) tl end.
Definition mrun (E : menv) (s : mmu) (l : list mop) : mmu := fold_left (mstep E) l s.

Definition no_host_write (o : mop) : bool := match o with HostWrite _ _ => false | _ => true end.
