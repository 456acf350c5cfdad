(** * Address translation: page walk, TLBs, guest and host accesses

    Files: MM = lib86cpu/core/memory_management.cpp, MH = memory_management.hpp,
    IN = core/internal.hpp, IF = lib86cpu/interface.cpp, CR = core/instructions.cpp.

    Simplifications, for the whole file:
    - physical memory is a map from addresses to 32-bit words and is only used
      for page directories and tables, which therefore sit in ram regions and
      are aligned (their addresses are: CR3 and the entries give 4 KB aligned
      bases);
    - region lookup, alias resolution and the A20 mask ([correct_phys_addr] after
      [as_memory_search_addr], MM 40-57) are the function [e_correct]; the kind of
      region that backs a corrected address is [e_kind];
    - the region pointer kept in a TLB line is left out;
    - the rng that picks a victim line is the arbitrary stream [e_rand];
    - the XBOX_CPU build (ipt) is left out;
    - data breakpoints are left out (see the debug register model). *)

From Coq Require Import ZArith Bool List.
Import ListNotations.
Local Open Scope Z_scope.

Inductive kind := KRam | KRom | KMmio | KUnmapped | KSubpage.

Record menv := mkmenv { e_correct : Z -> Z; e_kind : Z -> kind; e_rand : nat -> nat }.

Record mmu := mkmmu {
  cr0 : Z; cr3 : Z; cr4 : Z; cpl : Z;
  words : Z -> Z;                   (* 32-bit words of physical memory *)
  itlb : Z -> list Z;               (* set index -> 8 lines *)
  dtlb : Z -> list Z;               (* set index -> 4 lines *)
  smc : Z -> bool;                  (* physical pages holding translated code *)
  draws : nat                       (* victims drawn so far *)
}.

Definition set_words f s := mkmmu (cr0 s) (cr3 s) (cr4 s) (cpl s) f (itlb s) (dtlb s) (smc s) (draws s).
Definition set_itlb f s := mkmmu (cr0 s) (cr3 s) (cr4 s) (cpl s) (words s) f (dtlb s) (smc s) (draws s).
Definition set_dtlb f s := mkmmu (cr0 s) (cr3 s) (cr4 s) (cpl s) (words s) (itlb s) f (smc s) (draws s).
Definition set_smc f s := mkmmu (cr0 s) (cr3 s) (cr4 s) (cpl s) (words s) (itlb s) (dtlb s) f (draws s).
Definition draw s := mkmmu (cr0 s) (cr3 s) (cr4 s) (cpl s) (words s) (itlb s) (dtlb s) (smc s) (S (draws s)).
Definition set_cpl v s := mkmmu (cr0 s) (cr3 s) (cr4 s) v (words s) (itlb s) (dtlb s) (smc s) (draws s).

Definition upd {A} (f : Z -> A) (k : Z) (v : A) : Z -> A := fun x => if x =? k then v else f x.

(** IN 126-128, 266-314, 317-341 *)
Definition MMU_IS_WRITE := 1.  Definition MMU_IS_PRIV := 2.  Definition MMU_SET_CODE := 16.
Definition PTE_PRESENT := 1.   Definition PTE_WRITE := 2.    Definition PTE_USER := 4.
Definition PTE_ACCESSED := 32. Definition PTE_DIRTY := 64.   Definition PTE_LARGE := 128.
Definition PTE_GLOBAL := 256.
Definition PTE_ADDR_4K := 0xFFFFF000.  Definition PTE_ADDR_4M := 0xFFC00000.
Definition PAGE_MASK := 0xFFF.  Definition PAGE_MASK_LARGE := 0x3FFFFF.
Definition NOT_PAGE_MASK := 0xFFFFF000.
Definition TLB_SUP_READ := 1.  Definition TLB_SUP_WRITE := 2.
Definition TLB_USER_READ := 4. Definition TLB_USER_WRITE := 8.
Definition TLB_RAM := 32.      Definition TLB_ROM := 64.     Definition TLB_MMIO := 128.
Definition TLB_GLOBAL := 256.  Definition TLB_DIRTY := 512.  Definition TLB_SUBPAGE := 2048.
Definition TLB_VALID := 15.
Definition CR0_PG := 0x80000000. Definition CR0_WP := 0x10000.
Definition CR4_PSE := 16.        Definition CR4_PGE := 128.
Definition CR3_PD_MASK := 0xFFFFF000.
Definition ITLB_TAG_MASK64 := Z.shiftl 0x7FF 32.
Definition DTLB_TAG_MASK64 := Z.shiftl 0x1FF 32.

Definition nz (v : Z) : bool := negb (v =? 0).

(** [tlb_gen_access_mask] (MM 17-38); [user] is 0 or 4, [wr] is 0 or 2 *)
Definition tlb_gen_access_mask (c0 user wr : Z) : Z :=
  if user =? 0 then
    if nz wr then 3 else if nz (Z.land c0 CR0_WP) then 1 else 3
  else if nz wr then 15 else if nz (Z.land c0 CR0_WP) then 5 else 7.

(** ** The TLB arrays: [f] selects the instruction TLB *)

Definition tlb_idx (f : bool) (addr : Z) : Z := Z.land (Z.shiftr addr 12) (if f then 0x1FF else 0x7FF).
Definition tlb_tag_mask (f : bool) : Z := if f then ITLB_TAG_MASK64 else DTLB_TAG_MASK64.
Definition tlb_tag (f : bool) (addr : Z) : Z :=
  Z.land (Z.shiftl addr (if f then 11 else 9)) (tlb_tag_mask f).
Definition lines (f : bool) (s : mmu) : Z -> list Z := if f then itlb s else dtlb s.
Definition set_lines (f : bool) (t : Z -> list Z) (s : mmu) : mmu := if f then set_itlb t s else set_dtlb t s.
Definition nlines (f : bool) : nat := if f then 8%nat else 4%nat.

(** position of the first line satisfying [p] *)
Fixpoint find_line (p : Z -> bool) (l : list Z) : option nat :=
  match l with
  | [] => None
  | x :: tl => if p x then Some O else match find_line p tl with Some n => Some (S n) | None => None end
  end.
Fixpoint set_nth (n : nat) (v : Z) (l : list Z) : list Z :=
  match l, n with
  | [], _ => []
  | _ :: tl, O => v :: tl
  | x :: tl, S m => x :: set_nth m v tl
  end.

(** [tlb_fill] (MM 59-147).  Returns the corrected address. *)
Definition tlb_fill (f : bool) (E : menv) (addr pa prot : Z) (s : mmu) : Z * mmu :=
  let pa := e_correct E pa in
  let code := nz (Z.land prot MMU_SET_CODE) in
  let prot := Z.land prot (Z.lnot MMU_SET_CODE) in
  let s := if code then set_smc (upd (smc s) (Z.shiftr pa 12) true) s else s in
  let frame := Z.land pa NOT_PAGE_MASK in
  let '(flag, s) :=
    match e_kind E pa with
    | KRam => (TLB_RAM, s)
    | KUnmapped => (0, s)
    | KMmio => (TLB_MMIO, s)
    | KRom => (TLB_ROM, set_smc (upd (smc s) (Z.shiftr pa 12) false) s)
    | KSubpage => (TLB_SUBPAGE, s)
    end in
  let entry := Z.lor (Z.lor frame (Z.lor prot flag)) (tlb_tag f addr) in
  let i := tlb_idx f addr in
  let l := lines f s i in
  match find_line (fun x => (Z.lxor x entry =? TLB_DIRTY) || negb (nz (Z.land x TLB_VALID))) l with
  | Some n => (pa, set_lines f (upd (lines f s) i (set_nth n entry l)) s)
  | None =>
      let n := Nat.modulo (e_rand E (draws s)) (nlines f) in
      (pa, draw (set_lines f (upd (lines f s) i (set_nth n entry l)) s))
  end.

(** [tlb_flush<true, _>] (MM 150-155) and [tlb_flush<false, _>] (156-174) *)
Definition tlb_flush_all (s : mmu) : mmu :=
  set_itlb (fun _ => repeat 0 8) (set_dtlb (fun _ => repeat 0 4) s).
Definition keep_global (l : list Z) : list Z := map (fun x => if nz (Z.land x TLB_GLOBAL) then x else 0) l.
Definition tlb_flush_local (s : mmu) : mmu :=
  set_itlb (fun i => keep_global (itlb s i)) (set_dtlb (fun i => keep_global (dtlb s i)) s).

(** [check_page_access] (MM 206-258); levels are 0 s/r, 2 s/w, 4 u/r, 6 u/w *)
Definition nth_tab (l : list Z) (i : Z) : Z := nth (Z.to_nat i) l (-1).
Definition check_page_access (c0 level acc : Z) : Z :=
  let wp := nz (Z.land c0 CR0_WP) in
  if level =? 0 then nth_tab (if wp then [1; -1; 0; -1; 0; -1; 0] else [1; -1; 1; -1; 0; -1; 0]) acc
  else if level =? 2 then nth_tab [1; -1; 1; -1; 0; -1; 0] acc
  else if level =? 4 then nth_tab (if wp then [1; -1; 0; -1; 1; -1; 0] else [1; -1; 1; -1; 1; -1; 0]) acc
  else if level =? 6 then nth_tab [1; -1; 1; -1; 1; -1; 1] acc
  else -1.

(** [check_page_privilege] (MM 260-278) *)
Definition bad_row : list Z := [-1; -1; -1; -1; -1; -1; -1].
Definition priv_table : list (list Z) :=
  [ [0; -1; 2; -1; 0; -1; 2]; bad_row; [2; -1; 2; -1; 2; -1; 2]; bad_row;
    [0; -1; 2; -1; 4; -1; 4]; bad_row; [2; -1; 2; -1; 4; -1; 6] ].
Definition check_page_privilege (pde_priv pte_priv : Z) : Z :=
  nth_tab (nth (Z.to_nat pde_priv) priv_table bad_row) pte_priv.

Inductive xres :=
| XOk (pa info : Z) (s : mmu)          (* corrected address; [info] only for queries *)
| XFault (addr err : Z) (s : mmu).     (* #PF with CR2 and error code *)

(** [mmu_translate_addr] (MM 304-412); [fill] is should_fill_tlb (false for the
    query variant) *)
Definition mmu_translate (f fill : bool) (E : menv) (addr flags : Z) (s : mmu) : xres :=
  let is_write := Z.land flags MMU_IS_WRITE in
  let set_code := Z.land flags MMU_SET_CODE in
  if negb (nz (Z.land (cr0 s) CR0_PG)) then
    if fill then
      let '(pa, s) := tlb_fill f E addr addr
        (Z.lor TLB_VALID (Z.lor TLB_DIRTY set_code)) s in XOk pa 0 s
    else XOk (e_correct E addr) 0x67 s
  else
    let is_priv := Z.land flags MMU_IS_PRIV in
    let cpu_lv := if cpl s =? 3 then 4 else 0 in
    let pde_addr := e_correct E (Z.lor (Z.land (cr3 s) CR3_PD_MASK) (Z.shiftr addr 22 * 4)) in
    let pde := words s pde_addr in
    if negb (nz (Z.land pde PTE_PRESENT)) then
      XFault addr (Z.lor (Z.shiftl is_write 1) cpu_lv) s
    else
      let mem_access := Z.lor (Z.shiftl is_write 1) (Z.land (Z.shiftr cpu_lv is_priv) 4) in
      let pde_priv := Z.lor (Z.land pde PTE_WRITE) (Z.land pde PTE_USER) in
      let pge := Z.shiftl (Z.land (cr4 s) CR4_PGE) 1 in
      if nz (Z.land pde PTE_LARGE) && nz (Z.land (cr4 s) CR4_PSE) then
        if nz (check_page_access (cr0 s) pde_priv mem_access) then
          let pa := Z.lor (Z.land pde PTE_ADDR_4M) (Z.land addr PAGE_MASK_LARGE) in
          if fill then
            let s := if negb (nz (Z.land pde PTE_ACCESSED)) || nz is_write
                     then set_words (upd (words s) pde_addr
                            (Z.lor (Z.lor pde PTE_ACCESSED) (if nz is_write then PTE_DIRTY else 0))) s
                     else s in
            let '(pa, s) := tlb_fill f E addr pa
              (Z.lor (Z.lor (Z.lor (tlb_gen_access_mask (cr0 s) (Z.land pde_priv PTE_USER) (Z.land pde_priv PTE_WRITE))
                 (Z.shiftl is_write 9)) set_code) (Z.land (Z.land pde PTE_GLOBAL) pge)) s in
            XOk pa 0 s
          else
            XOk (e_correct E pa)
              (Z.lor 1 (Z.land pde (Z.lor (Z.lor PTE_WRITE PTE_USER) (Z.lor PTE_ACCESSED PTE_DIRTY)))) s
        else XFault addr (Z.lor (Z.lor 1 (Z.shiftl is_write 1)) cpu_lv) s
      else
        let pte_addr := e_correct E (Z.lor (Z.land pde PTE_ADDR_4K) (Z.land (Z.shiftr addr 12) 0x3FF * 4)) in
        let pte := words s pte_addr in
        if negb (nz (Z.land pte PTE_PRESENT)) then
          XFault addr (Z.lor (Z.shiftl is_write 1) cpu_lv) s
        else
          let access_lv := check_page_privilege pde_priv (Z.lor (Z.land pte PTE_WRITE) (Z.land pte PTE_USER)) in
          if nz (check_page_access (cr0 s) access_lv mem_access) then
            let pa := Z.lor (Z.land pte PTE_ADDR_4K) (Z.land addr PAGE_MASK) in
            if fill then
              let s := if negb (nz (Z.land pde PTE_ACCESSED))
                       then set_words (upd (words s) pde_addr (Z.lor pde PTE_ACCESSED)) s else s in
              let s := if negb (nz (Z.land pte PTE_ACCESSED)) || nz is_write
                       then set_words (upd (words s) pte_addr
                              (Z.lor (Z.lor pte PTE_ACCESSED) (if nz is_write then PTE_DIRTY else 0))) s
                       else s in
              let '(pa, s) := tlb_fill f E addr pa
                (Z.lor (Z.lor (Z.lor (tlb_gen_access_mask (cr0 s) (Z.land access_lv PTE_USER) (Z.land access_lv PTE_WRITE))
                   (Z.shiftl is_write 9)) set_code) (Z.land (Z.land pte PTE_GLOBAL) pge)) s in
              XOk pa 0 s
            else
              XOk (e_correct E pa)
                (Z.lor 1 (Z.land pte (Z.lor (Z.lor PTE_WRITE PTE_USER) (Z.lor PTE_ACCESSED PTE_DIRTY)))) s
          else XFault addr (Z.lor (Z.lor 1 (Z.shiftl is_write 1)) cpu_lv) s.

(** [tlb_access] (MH 46-49) *)
Definition tlb_access (wr lv : Z) : Z :=
  if nz wr then (if lv =? 3 then TLB_USER_WRITE else TLB_SUP_WRITE)
  else (if lv =? 3 then TLB_USER_READ else TLB_SUP_READ).

(** the line test shared by [tlb_get_read_addr] (MM 437-458), [tlb_get_write_addr]
    (465-492) and [tlb_get_code_addr] (500-508) *)
Definition hits (f : bool) (addr acc x : Z) : bool :=
  Z.lxor (Z.land x (Z.lor acc (tlb_tag_mask f))) (Z.lor (tlb_tag f addr) acc) =? 0.
Definition tlb_find (f : bool) (addr acc : Z) (s : mmu) : option (nat * Z) :=
  let l := lines f s (tlb_idx f addr) in
  match find_line (hits f addr acc) l with
  | Some n => Some (n, nth n l 0)
  | None => None
  end.
Definition hit_addr (x addr : Z) : Z := Z.land (Z.lor (Z.land x NOT_PAGE_MASK) (Z.land addr PAGE_MASK)) 0xFFFFFFFF.

Definition tlb_get_read_addr (addr is_priv : Z) (s : mmu) : option Z :=
  match tlb_find false addr (tlb_access 0 (Z.shiftr (cpl s) is_priv)) s with
  | Some (_, x) => Some (hit_addr x addr) | None => None
  end.

(** the page information of a query (MM 447-455, 475-483): the shifts are as
    written *)
Definition entry_info (x : Z) : Z :=
  Z.land (Z.lor 1 (Z.lor (Z.land x TLB_SUP_WRITE) (Z.lor (Z.shiftl (Z.land x TLB_USER_WRITE) 2)
    (Z.lor (Z.land x TLB_USER_READ) (Z.lor (Z.shiftl (Z.land x TLB_USER_WRITE) 1)
      (Z.lor PTE_ACCESSED (Z.shiftl (Z.land x TLB_DIRTY) 3))))))) 0xFFFFFFFF.

(** [tlb_get_write_addr<false>]: marks the line dirty *)
Definition tlb_get_write_addr (addr is_priv : Z) (s : mmu) : option (Z * mmu) :=
  match tlb_find false addr (tlb_access 1 (Z.shiftr (cpl s) is_priv)) s with
  | Some (n, x) =>
      let i := tlb_idx false addr in
      Some (hit_addr x addr, set_dtlb (upd (dtlb s) i (set_nth n (Z.lor x TLB_DIRTY) (dtlb s i))) s)
  | None => None
  end.

Definition tlb_get_code_addr (addr : Z) (s : mmu) : option Z :=
  match tlb_find true addr (tlb_access 0 (cpl s)) s with
  | Some (_, x) => Some (hit_addr x addr) | None => None
  end.

(** [get_read_addr] (MM 523-542), [get_write_addr] (567-591), [get_code_addr]
    (607-626): TLB first, then the walk.  These serve the host API
    (mem_read_block_virt, mem_write_block_virt, ...) and instruction fetches. *)
Definition get_read_addr (E : menv) (addr is_priv : Z) (s : mmu) : xres :=
  match tlb_get_read_addr addr is_priv s with
  | Some pa => XOk pa 0 s
  | None => mmu_translate false true E addr is_priv s
  end.
Definition get_write_addr (E : menv) (addr is_priv : Z) (s : mmu) : xres :=
  match tlb_get_write_addr addr is_priv s with
  | Some (pa, s') => XOk pa 0 s'
  | None => mmu_translate false true E addr (Z.lor MMU_IS_WRITE is_priv) s
  end.
Definition get_code_addr (E : menv) (addr : Z) (s : mmu) : xres :=
  match tlb_get_code_addr addr s with
  | Some pa => XOk pa 0 (set_smc (upd (smc s) (Z.shiftr pa 12) true) s)
  | None => mmu_translate true true E addr MMU_SET_CODE s
  end.

(** ** Guest accesses *)

Inductive ares :=
| AOk (bytes : list Z) (s : mmu)     (* the physical addresses accessed, in order *)
| AFault (addr err : Z) (s : mmu).

Fixpoint span (pa : Z) (n : nat) : list Z :=
  match n with O => [] | S m => pa :: span (pa + 1) m end.

Definition page (a : Z) : Z := Z.land a NOT_PAGE_MASK.
Definition w32 (v : Z) : Z := Z.land v 0xFFFFFFFF.

(** [mem_read_slow] (MH 263-291), [mem_write_slow] (293-331) and, for writes,
    the translation part of [get_write_addr_slow] (MM 558-564) *)
Definition mem_slow (E : menv) (addr size flags : Z) (s : mmu) : ares :=
  let last := w32 (addr + size - 1) in
  if negb (size =? 1) && negb (page addr =? page last) then
    match mmu_translate false true E addr flags s with
    | XFault a e s => AFault a e s
    | XOk pa1 _ s =>
        match mmu_translate false true E last flags s with
        | XFault a e s => AFault a e s
        | XOk pa2 _ s =>
            let bytes_in_page := w32 (page last - addr) in
            AOk (span pa1 (Z.to_nat bytes_in_page) ++ span (page pa2) (Z.to_nat (size - bytes_in_page))) s
        end
    end
  else
    match mmu_translate false true E addr flags s with
    | XFault a e s => AFault a e s
    | XOk pa _ s => AOk (span pa (Z.to_nat size)) s
    end.

(** the line test of the guest fast path: as [hits], plus "the last byte is on
    the same page" (MM 702-714) *)
Definition guest_hits (addr last acc x : Z) : bool :=
  Z.lxor (Z.lor (Z.land x (Z.lor acc DTLB_TAG_MASK64)) (page addr))
         (Z.lor (Z.lor (tlb_tag false addr) (page last)) acc) =? 0.

(** [mem_read_helper] (MM 695-760): on a hit the physical address is the one in
    the line; what is then done with it depends on the region kind *)
Definition guest_read (E : menv) (addr size is_priv : Z) (s : mmu) : ares :=
  let acc := tlb_access 0 (Z.shiftr (cpl s) is_priv) in
  let l := dtlb s (tlb_idx false addr) in
  match find_line (guest_hits addr (w32 (addr + size - 1)) acc) l with
  | Some n => AOk (span (hit_addr (nth n l 0) addr) (Z.to_nat size)) s
  | None => mem_slow E addr size is_priv s
  end.

(** [mem_write_helper] (MM 762-855): a hit also needs the dirty flag *)
Definition guest_write (E : menv) (addr size is_priv : Z) (s : mmu) : ares :=
  let acc := Z.lor (tlb_access 1 (Z.shiftr (cpl s) is_priv)) TLB_DIRTY in
  let l := dtlb s (tlb_idx false addr) in
  match find_line (guest_hits addr (w32 (addr + size - 1)) acc) l with
  | Some n => AOk (span (hit_addr (nth n l 0) addr) (Z.to_nat size)) s
  | None => mem_slow E addr size (Z.lor MMU_IS_WRITE is_priv) s
  end.

(** ** Invalidation *)

(** [tlb_invalidate] (IF 1215-1246): the first matching line of each TLB *)
Definition inval_one (f : bool) (addr : Z) (s : mmu) : mmu :=
  let i := tlb_idx f addr in
  let l := lines f s i in
  match find_line (hits f addr TLB_SUP_READ) l with
  | Some n => set_lines f (upd (lines f s) i (set_nth n 0 l)) s
  | None => s
  end.
Definition tlb_invalidate (addr : Z) (s : mmu) : mmu := inval_one false addr (inval_one true addr s).

(** ** Control registers: the TLB part of [update_crN_helper<0>] (CR 873-883,
    932-942, 944-959); faults and other effects are in the control register
    model *)
Definition write_cr0 (v : Z) (s : mmu) : mmu :=
  let s' := if negb (Bool.eqb (nz (Z.land (cr0 s) CR0_PG)) (nz (Z.land v CR0_PG))) ||
               (negb (Bool.eqb (nz (Z.land (cr0 s) CR0_WP)) (nz (Z.land v CR0_WP))) && nz (Z.land v CR0_PG))
            then tlb_flush_all s else s in
  mkmmu v (cr3 s') (cr4 s') (cpl s') (words s') (itlb s') (dtlb s') (smc s') (draws s').
Definition write_cr3 (v : Z) (s : mmu) : mmu :=
  let s' := if nz (Z.land (cr0 s) CR0_PG) then
              if nz (Z.land (cr4 s) CR4_PGE) then tlb_flush_local s else tlb_flush_all s
            else s in
  mkmmu (cr0 s') v (cr4 s') (cpl s') (words s') (itlb s') (dtlb s') (smc s') (draws s').
Definition write_cr4 (v : Z) (s : mmu) : mmu :=
  let m := Z.lor CR4_PSE CR4_PGE in
  let s' := if Z.land (cr4 s) m =? Z.land v m then s else tlb_flush_all s in
  mkmmu (cr0 s') (cr3 s') v (cpl s') (words s') (itlb s') (dtlb s') (smc s') (draws s').

(** the state after reset: TLBs empty *)
Definition mmu0 (c0 c3 c4 lv : Z) (w : Z -> Z) : mmu :=
  mkmmu c0 c3 c4 lv w (fun _ => repeat 0 8) (fun _ => repeat 0 4) (fun _ => false) O.
