(** Model of the region map of lib86cpu: class [address_space<key>] in
    /repo/lib86cpu/as.hpp and the region record [memory_region_t] in
    /repo/lib86cpu/lib86cpu_priv.hpp 74-98.

    [std::map<key, unique_ptr<memory_region_t>>] is a list of nodes sorted by
    key. A node carries an identity [n_id] standing for the address of the
    heap object owned by the unique_ptr, because alias regions keep raw
    pointers to other regions. Dereferencing an identity that is no longer in
    the list is a dangling access. Dereferencing [end()] or [prev(begin())] is
    undefined behaviour and is the outcome [None]. *)
From Coq Require Import ZArith List Bool.
Import ListNotations.
Open Scope Z_scope.

(** lib86cpu_priv.hpp 60-67 *)
Inductive mem_type := unmapped | ram | mmio | pmio | alias | rom.

Definition mem_type_eqb (a b : mem_type) : bool :=
  match a, b with
  | unmapped, unmapped | ram, ram | mmio, mmio
  | pmio, pmio | alias, alias | rom, rom => true
  | _, _ => false
  end.

(** The fields of [memory_region_t] other than [start] and [end]
    (lib86cpu_priv.hpp 75-97). [i_handlers] stands for the identity of the
    handler table after defaults were filled in, [i_aliased] for the raw
    pointer [aliased_region] ([None] = nullptr). The XBOX_CPU fields are not
    modelled. *)
Record rinfo := mk_info {
  i_type : mem_type;
  i_handlers : Z;
  i_opaque : Z;
  i_alias_offset : Z;
  i_aliased : option Z;
  i_rom_ptr : Z;
  i_buff_off : Z
}.

(** Default constructor, lib86cpu_priv.hpp 95-96. *)
Definition info_default : rinfo := mk_info unmapped 0 0 0 None 0 0.

Record region := mk_region { r_start : Z; r_end : Z; r_info : rinfo }.

Record node := mk_node { n_key : Z; n_id : Z; n_reg : region }.

(** [next_id] supplies identities for newly allocated regions. *)
Record aspace := mk_as { nodes : list node; next_id : Z }.

Definition set_end (e : Z) (n : node) : node :=
  mk_node (n_key n) (n_id n) (mk_region (r_start (n_reg n)) e (r_info (n_reg n))).

Definition set_reg (r : region) (n : node) : node := mk_node (n_key n) (n_id n) r.

Section Space.
(** [M] is [std::numeric_limits<key>::max()]: 2^32-1 for the memory space,
    2^16-1 for the io space. Key arithmetic wraps modulo [M+1]. *)
Variable M : Z.

Definition wrapk (x : Z) : Z := x mod (M + 1).

(** as.hpp 27-34: one unmapped region covering everything. *)
Definition as_create : aspace :=
  mk_as [mk_node 0 0 (mk_region 0 M info_default)] 1.

(** as.hpp 155-159 [get_it]: [std::prev(m_region_map.upper_bound(addr))].
    [None] is [prev(begin())]. *)
Fixpoint get_it_from (cur : option node) (l : list node) (a : Z) : option node :=
  match l with
  | [] => cur
  | n :: t => if n_key n <=? a then get_it_from (Some n) t a else cur
  end.

Definition get_it (l : list node) (a : Z) : option node := get_it_from None l a.

(** [std::next(it)] for the iterator whose key is [k]; [None] is [end()]. *)
Fixpoint next_it (l : list node) (k : Z) : option node :=
  match l with
  | [] => None
  | n :: t => if k <? n_key n then Some n else next_it t k
  end.

(** [std::prev(it)], [None] when [it] is [begin()]. *)
Definition prev_it (l : list node) (k : Z) : option node := get_it l (k - 1).

(** [std::map::emplace]: no effect when the key is already present. *)
Fixpoint emplace (l : list node) (x : node) : list node :=
  match l with
  | [] => [x]
  | n :: t =>
      if n_key x <? n_key n then x :: n :: t
      else if n_key x =? n_key n then n :: t
      else n :: emplace t x
  end.

(** Mutation of the region object through the iterator with key [k]. *)
Definition modify (l : list node) (k : Z) (f : node -> node) : list node :=
  map (fun n => if n_key n =? k then f n else n) l.

(** [m_region_map.erase(first, std::next(last))] for iterators with keys
    [k1 <= k2]; [erase(it)] is the case [k1 = k2]. *)
Definition erase_range (l : list node) (k1 k2 : Z) : list node :=
  filter (fun n => negb ((k1 <=? n_key n) && (n_key n <=? k2))) l.

(** as.hpp 161-168 [split]: copy the region, move its start to
    [split_at + 1], shorten the original, emplace the copy. *)
Definition split (s : aspace) (it : node) (split_at : Z) : aspace :=
  let new_start := wrapk (split_at + 1) in
  let new_node := mk_node new_start (next_id s)
                    (mk_region new_start (r_end (n_reg it)) (r_info (n_reg it))) in
  mk_as (emplace (modify (nodes s) (n_key it) (set_end split_at)) new_node)
        (next_id s + 1).

(** as.hpp 68-71 and 110-113: advance from [next(it)] until a region whose
    end is not below [e]; running past the last node is UB. *)
Fixpoint find_reach (l : list node) (k e : Z) : option node :=
  match l with
  | [] => None
  | n :: t =>
      if n_key n <=? k then find_reach t k e
      else if r_end (n_reg n) <? e then find_reach t k e
      else Some n
  end.

(** Re-read the node an iterator designates (iterators are stable). *)
Definition node_at (l : list node) (k : Z) : option node :=
  find (fun n => n_key n =? k) l.

(** as.hpp 58-61, 77-80, 100-103, 119-122: the common
    "if (start_in_region) { split(it, start - 1); it = std::next(it); }". *)
Definition split_front (s : aspace) (k start start_in_region : Z) : option (aspace * Z) :=
  if start_in_region =? 0 then Some (s, k)
  else
    match node_at (nodes s) k with
    | None => None
    | Some it =>
        let s1 := split s it (wrapk (start - 1)) in
        match next_it (nodes s1) k with
        | None => None
        | Some n => Some (s1, n_key n)
        end
    end.

(** as.hpp 42-85 [insert]. The std::swap of the two pointed-to regions puts the
    new contents into the existing object (identity kept); the old contents
    are destroyed with [region_to_add]. *)
Definition insert (s : aspace) (r : region) : option aspace :=
  let start := r_start r in
  let en := r_end r in
  match get_it (nodes s) start with
  | None => None
  | Some it =>
      let start_in_region := wrapk (start - r_start (n_reg it)) in
      if en <=? r_end (n_reg it) then
        let s1 := if en =? r_end (n_reg it) then s else split s it en in
        match split_front s1 (n_key it) start start_in_region with
        | None => None
        | Some (s2, k) => Some (mk_as (modify (nodes s2) k (set_reg r)) (next_id s2))
        end
      else
        match find_reach (nodes s) (n_key it) en with
        | None => None
        | Some nx =>
            let s1 := if r_start (n_reg nx) =? en then s else split s nx en in
            match split_front s1 (n_key it) start start_in_region with
            | None => None
            | Some (s2, k) =>
                Some (mk_as (emplace (erase_range (nodes s2) k (n_key nx))
                                     (mk_node start (next_id s2) r))
                            (next_id s2 + 1))
            end
        end
  end.

(** as.hpp 132-146: merge the new unmapped region with unmapped neighbours. *)
Definition merge_next (l : list node) (k : Z) : option (list node) :=
  match node_at l k with
  | None => None
  | Some _ =>
      match next_it l k with
      | None => Some l
      | Some nx =>
          if mem_type_eqb (i_type (r_info (n_reg nx))) unmapped
          then Some (erase_range (modify l k (set_end (r_end (n_reg nx)))) (n_key nx) (n_key nx))
          else Some l
      end
  end.

Definition merge_prev (l : list node) (k : Z) : option (list node) :=
  match node_at l k with
  | None => None
  | Some it =>
      match prev_it l k with
      | None => Some l
      | Some pv =>
          if mem_type_eqb (i_type (r_info (n_reg pv))) unmapped
          then Some (erase_range (modify l (n_key pv) (set_end (r_end (n_reg it)))) k k)
          else Some l
      end
  end.

(** as.hpp 87-147 [erase]. The node re-found by [get_it(start)] on line 133 is
    the one just emplaced. *)
Definition erase (s : aspace) (start en : Z) : option aspace :=
  match get_it (nodes s) start with
  | None => None
  | Some it =>
      let start_in_region := wrapk (start - r_start (n_reg it)) in
      let removed :=
        if en <=? r_end (n_reg it) then
          let s1 := if en =? r_end (n_reg it) then s else split s it en in
          match split_front s1 (n_key it) start start_in_region with
          | None => None
          | Some (s2, k) => Some (mk_as (erase_range (nodes s2) k k) (next_id s2))
          end
        else
          match find_reach (nodes s) (n_key it) en with
          | None => None
          | Some nx =>
              let s1 := if r_start (n_reg nx) =? en then s else split s nx en in
              match split_front s1 (n_key it) start start_in_region with
              | None => None
              | Some (s2, k) => Some (mk_as (erase_range (nodes s2) k (n_key nx)) (next_id s2))
              end
          end in
      match removed with
      | None => None
      | Some s3 =>
          let l4 := emplace (nodes s3) (mk_node start (next_id s3) (mk_region start en info_default)) in
          match get_it l4 start with
          | None => None
          | Some it2 =>
              match merge_next l4 (n_key it2) with
              | None => None
              | Some l5 =>
                  match merge_prev l5 (n_key it2) with
                  | None => None
                  | Some l6 => Some (mk_as l6 (next_id s3 + 1))
                  end
              end
          end
      end
  end.

(** as.hpp 149-153 [search]. *)
Definition search (s : aspace) (a : Z) : option region :=
  match get_it (nodes s) a with
  | None => None
  | Some n => Some (n_reg n)
  end.

End Space.

(** ** The public region API (interface.cpp 660-907) *)

Definition U64 : Z := 2 ^ 64.
Definition MEM_MAX : Z := 2 ^ 32 - 1.
Definition IO_MAX : Z := 2 ^ 16 - 1.

(** interface.cpp 669, 757, 810, 851, 897: the last address of a region is
    [min(start + size - 1, max)] computed in uint64_t. *)
Definition last_addr (M start size : Z) : Z :=
  Z.min ((start + size - 1) mod U64) M.

(** interface.cpp 660-682 [mem_init_region_ram] with [should_int = false]:
    [None] is the invalid_parameter status (nothing changed). *)
Definition ram_region (start size : Z) : option region :=
  if size =? 0 then None
  else Some (mk_region start (last_addr MEM_MAX start size)
               (mk_info ram 0 0 0 None 0 start)).

(** interface.cpp 698-789 [mem_init_region_io], [update = 0]. [h] names the
    handler table after defaults were filled in. *)
Definition mmio_region (start size h opaque : Z) : option region :=
  if size =? 0 then None
  else Some (mk_region start (last_addr MEM_MAX start size)
               (mk_info mmio h opaque 0 None 0 0)).

Definition pmio_region (start size h opaque : Z) : option region :=
  if size =? 0 then None
  else if (65535 <? start) || (65536 <? (start + size) mod U64) then None
  else Some (mk_region (start mod 2 ^ 16) (last_addr IO_MAX (start mod 2 ^ 16) size mod 2 ^ 16)
               (mk_info pmio h opaque 0 None 0 0)).

(** interface.cpp 841-876 [mem_init_region_rom] (non-XBOX_CPU); [buffer = 0]
    is a null pointer. *)
Definition rom_region (start size buffer : Z) : option region :=
  if (size =? 0) || (buffer =? 0) then None
  else Some (mk_region start (last_addr MEM_MAX start size)
               (mk_info rom 0 0 0 None buffer start)).

(** interface.cpp 800-829 [mem_init_region_alias]. The comparison with
    [ori_start + ori_size - 1] is in uint64_t. [None] outside is UB (never for
    a well-formed map), [Some None] the invalid_parameter status. *)
Definition alias_region (s : aspace) (alias_start ori_start ori_size : Z)
  : option (option region) :=
  if ori_size =? 0 then Some None
  else
    match get_it (nodes s) ori_start with
    | None => None
    | Some n =>
        let a := n_reg n in
        if (r_start a <=? ori_start)
           && ((ori_start + ori_size - 1) mod U64 <=? r_end a)
           && negb (mem_type_eqb (i_type (r_info a)) unmapped)
        then Some (Some (mk_region alias_start (last_addr MEM_MAX alias_start ori_size)
                     (mk_info alias 0 0 ((ori_start - r_start a) mod 2 ^ 32) (Some (n_id n)) 0 0)))
        else Some None
    end.

(** interface.cpp 887-907 [mem_destroy_region]: the range handed to [erase]. *)
Definition destroy_mem_range (start size : Z) : Z * Z :=
  (start, last_addr MEM_MAX start size).

Definition destroy_io_range (start size : Z) : Z * Z :=
  let start_io := start mod 2 ^ 16 in
  (start_io, last_addr IO_MAX start_io size).

(** One call on an address space with maximum key [M]. *)
Inductive asop :=
| OpInsert (r : region)
| OpErase (start en : Z).

Definition as_step (M : Z) (s : aspace) (o : asop) : option aspace :=
  match o with
  | OpInsert r => insert M s r
  | OpErase a b => erase M s a b
  end.

Fixpoint as_run (M : Z) (s : aspace) (ops : list asop) : option aspace :=
  match ops with
  | [] => Some s
  | o :: t =>
      match as_step M s o with
      | None => None
      | Some s' => as_run M s' t
      end
  end.

(** Alias resolution in the dispatchers, memory_management.hpp 14-18, 105-110:
    follow [aliased_region] summing the offsets; [None] on a dangling pointer,
    fuel stands for the (acyclic) chain length. *)
Definition deref (l : list node) (id : Z) : option region :=
  match find (fun n => n_id n =? id) l with
  | None => None
  | Some n => Some (n_reg n)
  end.

Fixpoint resolve_loop (fuel : nat) (l : list node) (r : region) (off : Z)
  : option (region * Z) :=
  match i_aliased (r_info r) with
  | None => Some (r, off)
  | Some p =>
      match fuel with
      | O => None
      | S f =>
          match deref l p with
          | None => None
          | Some r' => resolve_loop f l r' ((off + i_alias_offset (r_info r')) mod 2 ^ 32)
          end
      end
  end.

(** The address and final region used by as_memory_dispatch_read/_write for an
    access at [addr] that was routed to alias region [r]
    (memory_management.hpp 105-110, 159-164). *)
Definition dispatch_resolve (fuel : nat) (l : list node) (r : region) (addr : Z)
  : option (region * Z) :=
  match i_type (r_info r) with
  | alias =>
      match resolve_loop fuel l r (i_alias_offset (r_info r)) with
      | None => None
      | Some (r', off) => Some (r', (r_start r' + off + (addr - r_start r)) mod 2 ^ 32)
      end
  | _ => Some (r, addr)
  end.

(** correct_phys_addr (memory_management.cpp 40-57) before the A20 mask: the
    fast path's own alias resolution. *)
Fixpoint correct_loop (fuel : nat) (l : list node) (r : region) (offset : Z)
  : option (region * Z) :=
  match i_aliased (r_info r) with
  | None => Some (r, offset)
  | Some p =>
      match fuel with
      | O => None
      | S f =>
          match deref l p with
          | None => None
          | Some r' =>
              correct_loop f l r'
                ((offset + (r_start r - (i_alias_offset (r_info r) + r_start r'))) mod 2 ^ 32)
          end
      end
  end.

Definition correct_phys (fuel : nat) (l : list node) (r : region) (addr : Z)
  : option (region * Z) :=
  match i_type (r_info r) with
  | alias =>
      match correct_loop fuel l r 0 with
      | None => None
      | Some (r', offset) => Some (r', (addr - offset) mod 2 ^ 32)
      end
  | _ => Some (r, addr)
  end.

(** The memory-region API as one operation (interface.cpp 660-907, memory
    space, [should_int = false]; a deferred call is the same insert/erase done
    later by cpu_do_int, translate.cpp 1355-1462). *)
Inductive call :=
| CallRam (start size : Z)
| CallMmio (start size h opaque : Z)
| CallRom (start size buffer : Z)
| CallAlias (alias_start ori_start ori_size : Z)
| CallDestroy (start size : Z).

(** [Some None] is the invalid_parameter status. *)
Definition call_op (s : aspace) (c : call) : option (option asop) :=
  match c with
  | CallRam st sz => Some (option_map OpInsert (ram_region st sz))
  | CallMmio st sz h o => Some (option_map OpInsert (mmio_region st sz h o))
  | CallRom st sz b => Some (option_map OpInsert (rom_region st sz b))
  | CallAlias al o sz => option_map (option_map OpInsert) (alias_region s al o sz)
  | CallDestroy st sz => Some (Some (OpErase (fst (destroy_mem_range st sz)) (snd (destroy_mem_range st sz))))
  end.

(** The new map and whether the call returned success. *)
Definition api_step (s : aspace) (c : call) : option (aspace * bool) :=
  match call_op s c with
  | None => None
  | Some None => Some (s, false)
  | Some (Some o) => option_map (fun s' => (s', true)) (as_step MEM_MAX s o)
  end.

Fixpoint api_run (s : aspace) (cs : list call) : option (aspace * list bool) :=
  match cs with
  | [] => Some (s, [])
  | c :: t =>
      match api_step s c with
      | None => None
      | Some (s', ok) =>
          match api_run s' t with
          | None => None
          | Some (s'', oks) => Some (s'', ok :: oks)
          end
      end
  end.

(** Where an access at [a] ends up: search (as.hpp 149-153) followed by the
    dispatcher's alias resolution. *)
Definition dispatch (fuel : nat) (s : aspace) (a : Z) : option (region * Z) :=
  match search s a with
  | None => None
  | Some r => dispatch_resolve fuel (nodes s) r a
  end.
