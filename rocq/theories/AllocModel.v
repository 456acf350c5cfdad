(** * The allocator of code blocks

    Models lib86cpu/core/allocator.cpp (AL) and the use of it by the main loop of
    lib86cpu/core/translate.cpp (TR).  Addresses are integers, 0 is the null pointer.  The free list
    is threaded through the blocks themselves: [nexts] is the pointer stored at an address.
    Not modelled: the exception frames ([m_eh_frames]), the cache flush, failure of the host
    allocation. *)

From Coq Require Import ZArith Bool List.
Import ListNotations.
Local Open Scope Z_scope.

(** CODE_CACHE_MAX_SIZE (lib86cpu_priv.hpp 30), BLOCK_SIZE (allocator.hpp 13) *)
Definition max_tc : Z := 32768.
Definition nblocks : nat := Z.to_nat max_tc.
Definition BS : Z := 4096.
Definition block : Type := Z * Z. (* address and size *)
(** [mem_manager] (allocator.hpp 28-53): [m_head], [m_big_blocks] and the pointers stored in the blocks *)
Record mgr := mkmgr { nexts : Z -> Z; head : Z; bigs : list block }.

Definition put (m : Z -> Z) (a v : Z) : Z -> Z := fun x => if x =? a then v else m x.
(** the loop of [init_pool] (AL 20-30) with [n] iterations left *)
Fixpoint init_loop (n : nat) (a : Z) (m : Z -> Z) : Z -> Z :=
  match n with
  | O => put m a 0
  | S k => init_loop k (a + BS) (put m a (a + BS))
  end.
Definition init_pool (area : Z) (m : Z -> Z) : Z -> Z := init_loop (nblocks - 1) area m.
(** [mem_manager::mem_manager] (AL 14-18): the area has room for one more block *)
Definition new (area : Z) (m : Z -> Z) : mgr := mkmgr (init_pool area m) area [].
(** [destroy_all_blocks] (AL 48-71) *)
Definition destroy (area : Z) (s : mgr) : mgr := mkmgr (init_pool area (nexts s)) area [].

(** [allocate_sys_mem] and [alloc] (AL 32-39, 84-100); [os] is the address that [os_alloc] returns for a big
    block; [None] is the access to the null pointer when the pool is empty *)
Definition round_up (n : Z) : Z := Z.land (n + 4095) (Z.lxor (2 ^ 64 - 1) 4095).
Definition allocate (n os : Z) (s : mgr) : option (block * mgr) :=
  if n =? 0 then Some ((0, 0), s)
  else if BS <? n then Some ((os, round_up n), mkmgr (nexts s) (head s) ((os, round_up n) :: bigs s))
  else if head s =? 0 then None
  else Some ((head s, BS), mkmgr (nexts s) (nexts s (head s)) (bigs s)).
(** [get_non_pooled_sys_mem] (AL 102-110) *)
Definition non_pooled (area n : Z) : block := if n =? 0 then (0, 0) else (area + max_tc * BS, BS).
(** [release_sys_mem] and [free] (AL 41-46, 131-157) *)
Definition release (a : Z) (s : mgr) : mgr :=
  if a =? 0 then s
  else if existsb (fun b => fst b =? a) (bigs s) then mkmgr (nexts s) (head s) (filter (fun b => negb (fst b =? a)) (bigs s))
  else mkmgr (put (nexts s) a (head s)) a (bigs s).

(** ** The main loop as a client (TR 1512-1577) *)

(** [num_tc] and the allocator; a block of code is allocated, after a purge if the count has
    reached its maximum (TR 1558-1562); it is then either inserted in the cache and counted
    (TR 1577, 1137-1142) or run once and freed (TR 1564-1574) *)
Record client := mkclient { num_tc : Z; mem : mgr }.
Definition purge_if_full (area : Z) (c : client) : client :=
  if num_tc c =? max_tc then mkclient 0 (destroy area (mem c)) else c.
Definition translate_insert (area n os : Z) (c : client) : option client :=
  let c := purge_if_full area c in
  match allocate n os (mem c) with
  | Some (b, s) => Some (mkclient ((num_tc c + 1) mod 2 ^ 16) s)
  | None => None
  end.
Definition translate_once (area n os : Z) (c : client) : option client :=
  let c := purge_if_full area c in
  match allocate n os (mem c) with
  | Some (b, s) => Some (mkclient (num_tc c) (release (fst b) s))
  | None => None
  end.
(** the same when the block that runs once calls back into the host, and the host runs guest code
    with [hook_trampoline] (TR 1564-1574, 1706-1712): [inner] is what the nested main loop does *)
Definition translate_once_nested (area n os : Z) (inner : client -> option client) (c : client) : option client :=
  let c := purge_if_full area c in
  match allocate n os (mem c) with
  | Some (b, s) => match inner (mkclient (num_tc c) s) with
                   | Some c' => Some (mkclient (num_tc c') (release (fst b) (mem c')))
                   | None => None
                   end
  | None => None
  end.
