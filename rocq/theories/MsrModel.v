(** * RDMSR and WRMSR

    IS = core/instructions.cpp, RG = core/registers.hpp, IN = core/internal.hpp,
    TR = core/translate.cpp, JT = core/emitter/x64/jit.cpp. *)

From Coq Require Import ZArith Bool List.
Import ListNotations.
Local Open Scope Z_scope.

(** [msr_t] (RG 107-126) and [microcode_updated] *)
Record msrs := mkmsrs {
  base : Z -> Z; mask : Z -> Z; fixed : Z -> Z; def_type : Z; sign_id : Z; pat : Z;
  sys_cs : Z; sys_esp : Z; sys_eip : Z; mcg_cap : Z; mcg_status : Z; mcg_ctl : Z;
  banks : Z -> Z -> Z; ebl : Z; updated : bool }.
Definition put (f : Z -> Z) (k v : Z) : Z -> Z := fun i => if i =? k then v else f i.

(** constants (IN 369-422) *)
Definition BIOS_SIGN_ID_RES := 0xFFFFFFFF.
Definition APIC_BASE_RES := 0xFFFFFFF0000006FF.
Definition PHYSBASE_RES := 0xFFFFFFF000000F00.
Definition PHYSMASK_RES := 0xFFFFFFF0000007FF.
Definition DEF_TYPE_RES := 0xFFFFFFFFFFFFF300.
Definition PAT_RES := 0xF8F8F8F8F8F8F8F8.
Definition EBL_RES := 0xFFFFFFFFF0000821.
Definition EBL_RW := 0x040000DE.
Definition MCG_STATUS_RES := 0xFFFFFFFFFFFFFFF0.
Definition ALL_ONES := 2 ^ 64 - 1.
Definition nz (x : Z) : bool := negb (x =? 0).

(** what an access does: the new registers, #GP, or LIB86CPU_ABORT *)
Inductive mout (A : Type) := MOk (a : A) | MGp | MAbort.
Arguments MOk {A} a.
Arguments MGp {A}.
Arguments MAbort {A}.

(** the variable range registers: PHYSBASE(n) = 0x200 + 2n, PHYSMASK(n) = 0x201 + 2n, n < 8 *)
Definition is_base (c : Z) : bool := (0x200 <=? c) && (c <=? 0x20E) && Z.even c.
Definition is_mask (c : Z) : bool := (0x201 <=? c) && (c <=? 0x20F) && Z.odd c.
(** index of a fixed range register (IS 1137-1154) *)
Definition fixed_idx (c : Z) : option Z :=
  if c =? 0x250 then Some 0
  else if (0x258 <=? c) && (c <=? 0x259) then Some (c - 0x258 + 1)
  else if (0x268 <=? c) && (c <=? 0x26F) then Some (c - 0x268 + 3)
  else None.
Definition is_bank (c : Z) : bool := (0x400 <=? c) && (c <? 0x400 + 10 * 4).

(** [msr_read_helper] (IS 1062-1183): the value returned in EDX:EAX *)
Definition read (c : Z) (r : msrs) : mout Z :=
  if c =? 0x1B then MOk (Z.shiftl 1 8)
  else if c =? 0x2A then MOk (ebl r)
  else if c =? 0x79 then MOk 0
  else if c =? 0x8B then MOk (sign_id r)
  else if c =? 0xFE then MOk (Z.lor 8 (Z.lor (Z.shiftl 1 8) (Z.shiftl 1 10)))
  else if c =? 0x174 then MOk (Z.land (sys_cs r) 0xFFFFFFFF)
  else if c =? 0x175 then MOk (sys_esp r)
  else if c =? 0x176 then MOk (sys_eip r)
  else if c =? 0x179 then MOk (mcg_cap r)
  else if c =? 0x17A then MOk (mcg_status r)
  else if c =? 0x17B then MOk (if nz (Z.land (mcg_cap r) (Z.shiftl 1 8)) then mcg_ctl r else 0)
  else if is_base c then MOk (base r ((c - 0x200) / 2))
  else if is_mask c then MOk (mask r ((c - 0x201) / 2))
  else match fixed_idx c with
       | Some i => MOk (fixed r i)
       | None =>
         if c =? 0x277 then MOk (pat r)
         else if c =? 0x2FF then MOk (def_type r)
         else if is_bank c then MOk (banks r ((c - 0x400) / 4) (Z.land (c - 0x400) 3))
         else MAbort
       end.

Definition set_base v r := mkmsrs v (mask r) (fixed r) (def_type r) (sign_id r) (pat r) (sys_cs r) (sys_esp r) (sys_eip r) (mcg_cap r) (mcg_status r) (mcg_ctl r) (banks r) (ebl r) (updated r).
Definition set_mask v r := mkmsrs (base r) v (fixed r) (def_type r) (sign_id r) (pat r) (sys_cs r) (sys_esp r) (sys_eip r) (mcg_cap r) (mcg_status r) (mcg_ctl r) (banks r) (ebl r) (updated r).
Definition set_fixed v r := mkmsrs (base r) (mask r) v (def_type r) (sign_id r) (pat r) (sys_cs r) (sys_esp r) (sys_eip r) (mcg_cap r) (mcg_status r) (mcg_ctl r) (banks r) (ebl r) (updated r).
Definition set_def_type v r := mkmsrs (base r) (mask r) (fixed r) v (sign_id r) (pat r) (sys_cs r) (sys_esp r) (sys_eip r) (mcg_cap r) (mcg_status r) (mcg_ctl r) (banks r) (ebl r) (updated r).
Definition set_sign_id v r := mkmsrs (base r) (mask r) (fixed r) (def_type r) v (pat r) (sys_cs r) (sys_esp r) (sys_eip r) (mcg_cap r) (mcg_status r) (mcg_ctl r) (banks r) (ebl r) (updated r).
Definition set_pat v r := mkmsrs (base r) (mask r) (fixed r) (def_type r) (sign_id r) v (sys_cs r) (sys_esp r) (sys_eip r) (mcg_cap r) (mcg_status r) (mcg_ctl r) (banks r) (ebl r) (updated r).
Definition set_sys_cs v r := mkmsrs (base r) (mask r) (fixed r) (def_type r) (sign_id r) (pat r) v (sys_esp r) (sys_eip r) (mcg_cap r) (mcg_status r) (mcg_ctl r) (banks r) (ebl r) (updated r).
Definition set_sys_esp v r := mkmsrs (base r) (mask r) (fixed r) (def_type r) (sign_id r) (pat r) (sys_cs r) v (sys_eip r) (mcg_cap r) (mcg_status r) (mcg_ctl r) (banks r) (ebl r) (updated r).
Definition set_sys_eip v r := mkmsrs (base r) (mask r) (fixed r) (def_type r) (sign_id r) (pat r) (sys_cs r) (sys_esp r) v (mcg_cap r) (mcg_status r) (mcg_ctl r) (banks r) (ebl r) (updated r).
Definition set_mcg_status v r := mkmsrs (base r) (mask r) (fixed r) (def_type r) (sign_id r) (pat r) (sys_cs r) (sys_esp r) (sys_eip r) (mcg_cap r) v (mcg_ctl r) (banks r) (ebl r) (updated r).
Definition set_mcg_ctl v r := mkmsrs (base r) (mask r) (fixed r) (def_type r) (sign_id r) (pat r) (sys_cs r) (sys_esp r) (sys_eip r) (mcg_cap r) (mcg_status r) v (banks r) (ebl r) (updated r).
Definition set_bank i j v r := mkmsrs (base r) (mask r) (fixed r) (def_type r) (sign_id r) (pat r) (sys_cs r) (sys_esp r) (sys_eip r) (mcg_cap r) (mcg_status r) (mcg_ctl r)
  (fun b k => if (b =? i) && (k =? j) then v else banks r b k) (ebl r) (updated r).
Definition set_ebl v r := mkmsrs (base r) (mask r) (fixed r) (def_type r) (sign_id r) (pat r) (sys_cs r) (sys_esp r) (sys_eip r) (mcg_cap r) (mcg_status r) (mcg_ctl r) (banks r) v (updated r).
Definition set_updated r := mkmsrs (base r) (mask r) (fixed r) (def_type r) (sign_id r) (pat r) (sys_cs r) (sys_esp r) (sys_eip r) (mcg_cap r) (mcg_status r) (mcg_ctl r) (banks r) (ebl r) true.

(** the loop over the PAT entries (IS 1288-1293): entries 0 to 6 *)
Definition pat_bad (v : Z) : bool :=
  existsb (fun i => let t := Z.land (Z.shiftr v (i * 8)) 7 in (t =? 2) || (t =? 3)) [0; 1; 2; 3; 4; 5; 6].

(** [msr_write_helper] (IS 1186-1342) with EDX:EAX = [v] *)
Definition write (c v : Z) (r : msrs) : mout msrs :=
  let unless_res m k := if nz (Z.land v m) then MGp else MOk k in
  if c =? 0x1B then unless_res APIC_BASE_RES r
  else if c =? 0x2A then unless_res EBL_RES (set_ebl (Z.lor (Z.land (ebl r) (Z.lxor ALL_ONES EBL_RW)) (Z.land v EBL_RW)) r)
  else if c =? 0x79 then MOk (set_updated r)
  else if c =? 0x8B then unless_res BIOS_SIGN_ID_RES (set_sign_id v r)
  else if c =? 0xFE then MGp
  else if c =? 0x174 then MOk (set_sys_cs (Z.land v 0xFFFFFFFF) r)
  else if c =? 0x175 then MOk (set_sys_esp v r)
  else if c =? 0x176 then MOk (set_sys_eip v r)
  else if c =? 0x179 then MOk r
  else if c =? 0x17A then (if nz MCG_STATUS_RES then MGp else MOk (set_mcg_status v r))
  else if c =? 0x17B then
    MOk (if nz (Z.land (mcg_cap r) (Z.shiftl 1 8)) && ((v =? ALL_ONES) || (v =? 0)) then set_mcg_ctl v r else r)
  else if is_base c then unless_res PHYSBASE_RES (set_base (put (base r) ((c - 0x200) / 2) v) r)
  else if is_mask c then unless_res PHYSMASK_RES (set_mask (put (mask r) ((c - 0x201) / 2) v) r)
  else match fixed_idx c with
       | Some i => MOk (set_fixed (put (fixed r) i v) r)
       | None =>
         if c =? 0x277 then (if nz (Z.land v PAT_RES) then MGp else if pat_bad v then MGp else MOk (set_pat v r))
         else if c =? 0x2FF then unless_res DEF_TYPE_RES (set_def_type v r)
         else if is_bank c then
           let i := (c - 0x400) / 4 in
           let j := Z.land (c - 0x400) 3 in
           if j =? 0 then (if negb (v =? ALL_ONES) && negb (v =? 0) then MOk r else MOk (set_bank i j v r))
           else if nz v then MGp else MOk (set_bank i j v r)
         else MAbort
       end.

(** the registers after a reset (TR 411-424): everything else is zero *)
Definition reset_msrs : msrs :=
  mkmsrs (fun _ => 0) (fun _ => 0) (fun _ => 0) 0 0 0 0 0 0 (Z.lor 10 (Z.lor (Z.shiftl 1 8) (Z.shiftl 1 24))) 0 ALL_ONES
    (fun _ j => if j =? 0 then ALL_ONES else 0) 0xC5040000 false.
