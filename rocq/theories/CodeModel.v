(** * The code cache, block linking and return prediction

    Models lib86cpu/core/translate.cpp (TR), lib86cpu/core/helpers.cpp (HE), the code of
    lib86cpu/core/emitter/x64/jit.cpp (JI) that links blocks, and the places of
    lib86cpu/core/memory_management.{cpp,hpp} (MM) that mark pages and invalidate code.
    Addresses are integers in [0, 2^32).  A pointer to a translated block is its number [tid];
    deleting the block leaves copies of the number in other tables dangling.

    Simplifications.  The 32768 buckets of the cache are one list, newest first: a lookup only matches
    blocks with the address that selects the bucket, and each bucket is in that order.  The map from
    pages to sets of blocks is a list of pairs.  The map from pages to sets of linked addresses is one
    set, because the page is a part of the address.  Calls of [get_code_addr] made to compare with the
    running block are not repeated on the marked pages.  The generated code is not modelled: a block
    has the list of its calls, with the offset of the code after the call and the return address. *)

From Coq Require Import ZArith Bool List.
Import ListNotations.
Local Open Scope Z_scope.

(** HFLG_CONST and HFLG_INVALID (internal.hpp 83, 105), EFLAGS_CONST (internal.hpp 242) *)
Definition HFLG_CONST : Z :=
  Z.lor 0x3 (Z.lor 0x4 (Z.lor 0x8 (Z.lor 0x10 (Z.lor 0x20 (Z.lor 0x40 (Z.lor (2 ^ 15) (Z.lor (2 ^ 10) (Z.lor (2 ^ 11) (Z.lor 0x80
  (Z.lor (2 ^ 9) (Z.lor (2 ^ 19) (Z.lor (2 ^ 20) (63 * 2 ^ 21))))))))))))).
Definition EFLAGS_CONST : Z := Z.lor 0x100 (Z.lor 0x3000 (Z.lor 0x10000 (Z.lor 0x20000 0x40000))).
Definition HFLG_INVALID : Z := 2 ^ 31.
Definition page (a : Z) : Z := Z.shiftr a 12.
(** CODE_CACHE_MAX_SIZE, RSB_MAX_SIZE (lib86cpu_priv.hpp 30, 32) *)
Definition max_tc : Z := 32768.

(** [translated_code_t] (lib86cpu_priv.hpp 132-141).  [t_size] is [size], the bytes of the instructions that were
    decoded (TR 1342).  [t_len] is not in the code: it counts all the bytes that the block was translated
    from, and is larger when the block ends with bytes that do not decode and raise an exception
    (TR 1277-1314 return before the size is updated).  Both are 0 for the block of a hook (TR 1547). *)
Record tc := mktc { tid : Z; t_pc : Z; t_vpc : Z; t_cs : Z; t_fl : Z; t_size : Z; t_len : Z; t_calls : list (Z * Z) }.
(** [jmp_table_elem] (lib86cpu_priv.hpp 143-149) *)
Record slot := mkslot { s_vpc : Z; s_cs : Z; s_fl : Z; s_code : Z }.
(** an entry of the return stack buffer (HE 284-286): valid bit, offset and target, block *)
Record ret_entry := mkret { r_valid : bool; r_off : Z; r_pc : Z; r_tc : option Z }.
Record state := mkst {
  cache : list tc;            (* [code_cache] *)
  pmap : list (Z * Z);        (* [tc_page_map]: page, block *)
  smc : Z -> bool;            (* [smc] *)
  jset : Z -> bool;           (* [jmp_page_map] *)
  slots : Z -> slot;          (* [jmp_table] *)
  rsb : Z -> ret_entry;       (* [rsb] *)
  rptr : Z;                   (* [rsb_ptr] *)
  num : Z                     (* [num_tc] *)
}.

(** what the CPU is about to run: [get_pc], [get_code_addr] of it, the base of cs, hflags, eflags *)
Record ctx := mkctx { c_vpc : Z; c_pc : Z; c_cs : Z; c_hfl : Z; c_efl : Z }.
Definition cflags (c : ctx) : Z := Z.lor (Z.land (c_hfl c) HFLG_CONST) (Z.land (c_efl c) EFLAGS_CONST).

Definition upd {A} (f : Z -> A) (k : Z) (v : A) : Z -> A := fun x => if x =? k then v else f x.

(** [rsb_flush(cpu)] (HE 328-334) and [rsb_flush(cpu, addr)] (HE 337-345) *)
Definition no_entry : ret_entry := mkret false 0 0 None.
(** storing 0 in the first word of an entry leaves the second *)
Definition clear_entry (e : ret_entry) : ret_entry := mkret false 0 0 (r_tc e).
Definition rsb_flush_all (s : state) : state :=
  mkst (cache s) (pmap s) (smc s) (jset s) (slots s) (fun i => clear_entry (rsb s i)) 0 (num s).
Definition rsb_flush (a : Z) (s : state) : state :=
  mkst (cache s) (pmap s) (smc s) (jset s) (slots s)
    (fun i => if page (r_pc (rsb s i)) =? page a then clear_entry (rsb s i) else rsb s i) (rptr s) (num s).

Definition invalidate_slot (e : slot) : slot := mkslot (s_vpc e) (s_cs e) HFLG_INVALID (s_code e).
(** [tc_unlink] (TR 996-1010) *)
Definition unlink (v : Z) (s : state) : state :=
  rsb_flush v
    (if jset s v then mkst (cache s) (pmap s) (smc s) (upd (jset s) v false)
                        (upd (slots s) (Z.land v 4095) (invalidate_slot (slots s (Z.land v 4095)))) (rsb s) (rptr s) (num s)
     else s).
(** [tc_unlink_page] (TR 1012-1023) *)
Definition unlink_page (v : Z) (s : state) : state :=
  rsb_flush v
    (mkst (cache s) (pmap s) (smc s) (fun a => if page a =? page v then false else jset s a)
       (fun i => if jset s (Z.lor (Z.shiftl (page v) 12) i) then invalidate_slot (slots s i) else slots s i) (rsb s) (rptr s) (num s)).
(** [tc_unlink_all] (TR 1025-1033) *)
Definition unlink_all (s : state) : state :=
  rsb_flush_all (mkst (cache s) (pmap s) (smc s) (fun _ => false) (fun i => invalidate_slot (slots s i)) (rsb s) (rptr s) (num s)).
(** [tc_cache_clear] (TR 1151-1163) and [tc_cache_purge] (TR 1165-1173) *)
Definition cache_clear (s : state) : state :=
  unlink_all (mkst [] [] (fun _ => false) (jset s) (slots s) (rsb s) (rptr s) (num s)).
Definition cache_purge (s : state) : state :=
  let s := cache_clear s in mkst (cache s) (pmap s) (smc s) (jset s) (slots s) (rsb s) (rptr s) 0.

(** [tc_cache_search] (TR 1115-1132) *)
Definition search (c : ctx) (s : state) : option tc :=
  find (fun t => (t_cs t =? c_cs c) && (t_pc t =? c_pc c) && (t_fl t =? cflags c)) (cache s).
(** [tc_cache_insert] (TR 1134-1140) *)
Definition insert (t : tc) (s : state) : state :=
  mkst (t :: cache s) ((page (t_pc t), tid t) :: pmap s) (smc s) (jset s) (slots s) (rsb s) (rptr s) ((num s + 1) mod 2 ^ 16).

(** [tc_invalidate<remove_hook>] (TR 1035-1109).  [hook] is the template parameter.  The comparison is made
    with 64 bit unsigned numbers. *)
Definition to_remove (hook : bool) (a n : Z) (t : tc) : bool :=
  if hook then (t_size t =? 0) && (t_pc t =? a)
  else negb (t_size t =? 0) && negb (Z.min (a + n - 1) (t_pc t + t_size t - 1) <? Z.max a (t_pc t)).
Definition drop (s : state) (t : tc) : state :=
  let s := unlink (t_vpc t) s in
  mkst (filter (fun u => negb (tid u =? tid t)) (cache s)) (filter (fun p => negb (snd p =? tid t)) (pmap s)) (smc s) (jset s) (slots s) (rsb s) (rptr s) (num s).
Definition in_page (p : Z) (s : state) (t : tc) : bool := existsb (fun q => (fst q =? p) && (snd q =? tid t)) (pmap s).
Definition victims (hook : bool) (a n : Z) (s : state) : list tc :=
  let l := filter (fun t => in_page (page a) s t && to_remove hook a n t) (cache s) in
  if hook then firstn 1 l else l.
(** the state afterwards, and whether the running block is to be left *)
Definition invalidate (hook : bool) (a n : Z) (cur : ctx) (s : state) : state * bool :=
  if existsb (fun q => fst q =? page a) (pmap s) then
    let l := victims hook a n s in
    let s1 := fold_left drop l s in
    let halt := existsb (fun t => (t_cs t =? c_cs cur) && (t_pc t =? c_pc cur) && (t_fl t =? cflags cur)) l in
    (if existsb (fun q => fst q =? page a) (pmap s1) then s1
     else mkst (cache s1) (pmap s1) (upd (smc s1) (page a) false) (jset s1) (slots s1) (rsb s1) (rptr s1) (num s1), halt)
  else (s, false).

(** [tc_link_jmp] (TR 1175-1197); [None] is a failed assertion *)
Definition link (t : tc) (s : state) : option state :=
  let i := Z.land (t_vpc t) 4095 in
  let e := slots s i in
  let ins js := Some (mkst (cache s) (pmap s) (smc s) (upd js (t_vpc t) true) (upd (slots s) i (mkslot (t_vpc t) (t_cs t) (t_fl t) (tid t))) (rsb s) (rptr s) (num s)) in
  if Z.land (s_fl e) HFLG_INVALID =? 0 then
    if jset s (s_vpc e) then ins (upd (jset s) (s_vpc e) false) else None
  else ins (jset s).

(** the jump emitted at the end of a block (JI 966-992): the block to continue with *)
Definition jump (c : ctx) (s : state) : option Z :=
  let e := slots s (Z.land (c_vpc c) 4095) in
  if (s_vpc e =? c_vpc c) && ((s_cs e =? c_cs c) && (s_fl e =? cflags c)) then Some (s_code e) else None.

(** [rsb_push] (HE 278-287), called by the code of a call (JI 1010-1029) *)
Definition push (t : option Z) (off target : Z) (s : state) : state :=
  let i := Z.land (rptr s - 1) 63 in
  mkst (cache s) (pmap s) (smc s) (jset s) (slots s) (upd (rsb s) i (mkret true off target t)) i (num s).
(** [rsb_pop] (HE 289-326).  [Use_after_free] is the access to a block that has been deleted. *)
Inductive popped := Miss (s : state) | Hit (t off : Z) (s : state) | Use_after_free.
Definition pop (c : ctx) (s : state) : popped :=
  let e := rsb s (rptr s) in
  let next := mkst (cache s) (pmap s) (smc s) (jset s) (slots s) (upd (rsb s) (rptr s) (clear_entry e)) (Z.land (rptr s + 1) 63) (num s) in
  if negb (r_valid e) then Miss (rsb_flush_all s)
  else match r_tc e with
  | None => Miss next
  | Some i =>
      if r_pc e =? c_vpc c then
        match find (fun t => tid t =? i) (cache s) with
        | None => Use_after_free
        | Some t => if (t_cs t =? c_cs c) && (t_fl t =? cflags c) then Hit i (r_off e) next else Miss (rsb_flush_all s)
        end
      else Miss (rsb_flush_all s)
  end.

(** [get_code_addr] marks the page (MM.cpp 602-612, 68-75), the translation of a block that is not found
    (TR 1512-1577) *)
Definition fetch (c : ctx) (s : state) : state :=
  mkst (cache s) (pmap s) (upd (smc s) (page (c_pc c)) true) (jset s) (slots s) (rsb s) (rptr s) (num s).
Definition add_block (t : tc) (s : state) : state := insert t (if num s =? max_tc then cache_purge s else s).

(** a write of the guest to one page (MM.hpp 322-330, MM.cpp 789-793), and across two pages (MM.hpp 298-311): [a1] is the
    physical address of the first byte, [a2] of the last byte, [n] the size and [k] the bytes in the first page *)
Definition guest_write (a n : Z) (cur : ctx) (s : state) : state * bool := if smc s (page a) then invalidate false a n cur s else (s, false).
Definition guest_write_cross (a1 a2 n k : Z) (cur : ctx) (s : state) : state * bool :=
  let (s1, h1) := if smc s (page a1) then invalidate false a1 k cur s else (s, false) in
  let (s2, h2) := if smc s (page a2) then invalidate false a2 (n - k) cur s1 else (s1, false) in
  (s2, h1 || h2).
(** one page of [mem_write_block_phys] (interface.cpp 1023-1026) *)
Definition host_write (a n : Z) (cur : ctx) (s : state) : state := fst (invalidate false a n cur s).

(** when the region is an alias, the bytes are stored [delta] lower than the address that was used to
    invalidate code (interface.cpp 1023-1026, 1045-1051): the new state and the address of the bytes *)
Definition host_write_alias (a n delta : Z) (cur : ctx) (s : state) : state * Z := (host_write a n cur s, a - delta).

(** initially every table is empty ([cpu_reset], TR 424-428) *)
Definition init : state :=
  mkst [] [] (fun _ => false) (fun _ => false) (fun _ => mkslot 0 0 HFLG_INVALID 0) (fun _ => no_entry) 0 0.
