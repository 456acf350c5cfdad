(** What an access of the guest should do, one byte at a time for memory and one call at a time
    for devices. *)
From Coq Require Import ZArith List Bool.
From Verif Require Import AddrSpaceModel BlockModel BlockSpec AccModel.
Import ListNotations.
Open Scope Z_scope.

(** Only memory and devices of memory are mapped. *)
Definition no_alias (s : aspace) : Prop :=
  forall a r, 0 <= a < 2 ^ 32 -> search s a = Some r -> i_type (r_info r) <> alias /\ i_type (r_info r) <> pmio.

(** All bytes of the ram and rom regions are in their buffers. *)
Definition backed (s : aspace) (m : hmem) : Prop :=
  forall a r, 0 <= a < 2 ^ 32 -> search s a = Some r ->
    match i_type (r_info r) with
    | ram => 0 <= i_buff_off (r_info r) <= r_start r /\ r_end r - i_buff_off (r_info r) < h_ram_size m
    | rom => 0 <= i_buff_off (r_info r) <= r_start r /\ r_end r - i_buff_off (r_info r) < h_rom_size m (i_rom_ptr (r_info r))
    | _ => True
    end.

(** Buffers hold bytes. *)
Definition bytes (m : hmem) : Prop := (forall i, 0 <= h_ram m i < 256) /\ forall b i, 0 <= h_rom m b i < 256.

(** Pages are translated to pages. *)
Definition pages (tr : Z -> Z) : Prop := forall p, 0 <= p < 2 ^ 20 -> 0 <= tr p < 2 ^ 20.
(** the physical address of byte [i] of an access at [va]; virtual addresses wrap at 4 GiB *)
Definition phys (tr : Z -> Z) (va i : Z) : Z :=
  let v := (va + i) mod 2 ^ 32 in tr (v / 4096) * 4096 + v mod 4096.

(** a data size of x86 *)
Definition size (n : Z) : Prop := In n [1; 2; 4; 8; 10; 16].
(** The access stays in one page. *)
Definition in_page (va n : Z) : Prop := va / 4096 = (va + n - 1) / 4096.

(** the byte kept at a physical address; nothing is kept where nothing is mapped *)
Definition content (s : aspace) (m : hmem) (a : Z) : Z :=
  match search s a with
  | Some r => match i_type (r_info r) with
              | ram => h_ram m (a - i_buff_off (r_info r))
              | rom => h_rom m (i_rom_ptr (r_info r)) (a - i_buff_off (r_info r))
              | _ => 0
              end
  | None => 0
  end.
(** the device at a physical address *)
Definition device_at (s : aspace) (a : Z) : option (Z * Z) :=
  match search s a with
  | Some r => match i_type (r_info r) with mmio => Some (i_handlers (r_info r), i_opaque (r_info r)) | _ => None end
  | None => None
  end.
(** a byte stored at a physical address: only ram takes it *)
Definition stored (s : aspace) (m : hmem) (a b : Z) : hmem :=
  match search s a with
  | Some r => match i_type (r_info r) with
              | ram => set_ram m (fun j => if j =? a - i_buff_off (r_info r) then b else h_ram m j)
              | _ => m
              end
  | None => m
  end.

(** reading single bytes, the first address first *)
Fixpoint each_read (s : aspace) (dev : device) (m : hmem) (l : list Z) (c : list dcall) : list Z * list dcall :=
  match l with
  | [] => ([], c)
  | a :: t =>
      match device_at s a with
      | Some (h, o) => let '(bs, c') := each_read s dev m t (c ++ [DRead h o a 1]) in (dev c h o a 1 mod 256 :: bs, c')
      | None => let '(bs, c') := each_read s dev m t c in (content s m a :: bs, c')
      end
  end.
(** writing single bytes *)
Fixpoint each_write (s : aspace) (m : hmem) (l : list (Z * Z)) (c : list dcall) : hmem * list dcall :=
  match l with
  | [] => (m, c)
  | (a, b) :: t =>
      match device_at s a with
      | Some (h, o) => each_write s m t (c ++ [DWrite h o a 1 b])
      | None => each_write s (stored s m a b) t c
      end
  end.

Definition upto (n : Z) : list Z := map Z.of_nat (seq 0 (Z.to_nat n)).

(** Two host memories hold the same. *)
Definition same_mem (m1 m2 : hmem) : Prop :=
  (forall j, h_ram m1 j = h_ram m2 j) /\ h_ram_size m1 = h_ram_size m2 /\ h_rom m1 = h_rom m2 /\ h_rom_size m1 = h_rom_size m2.

(** ** Ports *)
(** The range of a call is a number of units of [g] ports inside the 65536 ports. *)
Definition port_call_ok (g : Z) (c : pcall) : Prop :=
  match c with
  | PortMap st sz _ _ | PortUnmap st sz => 0 <= st /\ 0 < sz /\ st + sz <= 65536 /\ st mod g = 0 /\ sz mod g = 0
  end.
(** the device of the last call whose range contains the port, after [last] *)
Fixpoint port_owner (last : option (Z * Z)) (l : list pcall) (p : Z) : option (Z * Z) :=
  match l with
  | [] => last
  | PortMap st sz h o :: t => port_owner (if (st <=? p) && (p <? st + sz) then Some (h, o) else last) t p
  | PortUnmap st sz :: t => port_owner (if (st <=? p) && (p <? st + sz) then None else last) t p
  end.
