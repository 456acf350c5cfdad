(** * Properties C90 and C91: accesses reach the region at their address *)
From Coq Require Import ZArith List Bool Lia.
From Verif Require Import AddrSpaceModel AddrSpaceSpec BlockModel BlockSpec BlockProofs AccModel AccSpec AccProofs.
Import ListNotations.
Open Scope Z_scope.

(** A state of the machine: a map made by the API with no aliases, buffers that hold the regions,
    and any history of accesses and of lines dropped from the TLB. *)
Definition reached (s : aspace) (dev : device) (tr : Z -> Z) (fuel : nat) (m0 : hmem) (x : st) : Prop :=
  coherent s /\ no_alias s /\ pages tr /\ backed s m0 /\
  exists l, Forall ev_ok l /\ run s fuel dev tr (init m0) l = Ok x.

Lemma reached_inv s dev tr fuel m0 x : reached s dev tr fuel m0 x ->
  coherent s /\ no_alias s /\ pages tr /\ backed s m0 /\ inv s tr m0 x.
Proof.
  intros (C & N & P & B & l & F & E). repeat (split; [assumption|]).
  exact (run_inv s fuel dev tr C N P m0 l B F (init m0) x (init_inv s tr m0) E).
Qed.

(** ** C90 *)

(** Memory: an access of any size that stays in a page and in a region of ram, rom or nothing
    reads the bytes kept at its addresses, asks no device and changes no memory.  It does so with
    and without a line in the TLB. *)
Theorem C90_read_memory_partial : forall s dev tr fuel m0 x h va n r,
  reached s dev tr fuel m0 x -> 0 <= va < 2 ^ 32 -> size n -> in_page va n ->
  search s (phys tr va 0) = Some r -> phys tr va 0 + n - 1 <= r_end r -> device_at s (phys tr va 0) = None ->
  exists y, mem_read s fuel dev tr h va n x = Ok (word (map (fun i => content s (hm x) (phys tr va 0 + i)) (upto n)), y) /\
    hm y = hm x /\ calls y = calls x.
Proof.
  intros s dev tr fuel m0 x h va n r R Hva Hn Hp S0 He D.
  destruct (reached_inv _ _ _ _ _ _ R) as (C & N & P & B & I & L).
  apply size_range in Hn. rewrite (phys_first tr va Hva) in *.
  destruct (mem_read_in s fuel dev tr C N P h va n x r Hva ltac:(lia) L Hp S0 He) as (t & Lt & E).
  pose proof (pa_range tr P va Hva) as Hr.
  rewrite (read_in_mem s dev C N m0 r _ n (set_tlb x t) B I (proj1 Hr) ltac:(lia) S0 (proj2 Hr) He D) in E.
  rewrite E. eexists. split; [reflexivity|]. split; reflexivity.
Qed.
Print Assumptions C90_read_memory_partial.

(** Devices: an access of 1, 2, 4 or 8 bytes is one call of the handler of the region, with its
    opaque pointer, the physical address and the width of the access; the answer is cut to the
    width. *)
Theorem C90_read_device_partial : forall s dev tr fuel m0 x h va n r hd o,
  reached s dev tr fuel m0 x -> 0 <= va < 2 ^ 32 -> In n [1; 2; 4; 8] -> in_page va n ->
  search s (phys tr va 0) = Some r -> phys tr va 0 + n - 1 <= r_end r -> device_at s (phys tr va 0) = Some (hd, o) ->
  exists y, mem_read s fuel dev tr h va n x = Ok (dev (calls x) hd o (phys tr va 0) n mod 2 ^ (8 * n), y) /\
    hm y = hm x /\ calls y = calls x ++ [DRead hd o (phys tr va 0) n].
Proof.
  intros s dev tr fuel m0 x h va n r hd o R Hva Hn Hp S0 He D.
  destruct (reached_inv _ _ _ _ _ _ R) as (C & N & P & B & I & L).
  assert (1 <= n /\ handled n = true) as (Hn1 & Hn2) by (cbn [In] in Hn; destruct Hn as [<-|[<-|[<-|[<-|[]]]]]; split; (lia || reflexivity)).
  rewrite (phys_first tr va Hva) in *.
  destruct (mem_read_in s fuel dev tr C N P h va n x r Hva Hn1 L Hp S0 He) as (t & Lt & E).
  rewrite (read_in_dev s dev r _ n (set_tlb x t) hd o S0 D Hn2) in E.
  rewrite E. eexists. split; [reflexivity|]. split; reflexivity.
Qed.
Print Assumptions C90_read_device_partial.

(** An access that crosses a page is done byte by byte, the lowest address first; each byte is
    read where its own page is mapped, in its own region. *)
Theorem C90_read_crossing : forall s dev tr fuel m0 x h va n,
  reached s dev tr fuel m0 x -> 0 <= va < 2 ^ 32 -> size n -> ~ in_page va n ->
  exists y, mem_read s fuel dev tr h va n x =
      Ok (word (fst (each_read s dev (hm x) (map (phys tr va) (upto n)) (calls x))), y) /\
    hm y = hm x /\ calls y = snd (each_read s dev (hm x) (map (phys tr va) (upto n)) (calls x)).
Proof.
  intros s dev tr fuel m0 x h va n R Hva Hn Hp.
  destruct (reached_inv _ _ _ _ _ _ R) as (C & N & P & B & I).
  apply size_range in Hn.
  destruct (mem_read_cross s fuel dev tr C N P m0 h va n x B I Hva ltac:(lia) Hp) as (bs & c & t & E1 & _ & E2).
  rewrite E1, E2. eexists. split; [reflexivity|]. split; reflexivity.
Qed.
Print Assumptions C90_read_crossing.

(** A write to ram in one page and one region stores exactly its bytes; a write to rom or to
    nothing changes no memory; no device is told. *)
Theorem C90_write_memory_partial : forall s dev tr fuel m0 x h va n v r,
  reached s dev tr fuel m0 x -> 0 <= va < 2 ^ 32 -> size n -> in_page va n ->
  search s (phys tr va 0) = Some r -> phys tr va 0 + n - 1 <= r_end r -> device_at s (phys tr va 0) = None ->
  exists y, mem_write s fuel tr h va n v x = Ok y /\ calls y = calls x /\ h_rom (hm y) = h_rom (hm x) /\
    (i_type (r_info r) = ram ->
       let i0 := phys tr va 0 - i_buff_off (r_info r) in
       (forall i, 0 <= i < n -> h_ram (hm y) (i0 + i) = byte_of v i) /\
       (forall j, ~ i0 <= j < i0 + n -> h_ram (hm y) j = h_ram (hm x) j)) /\
    (i_type (r_info r) <> ram -> forall j, h_ram (hm y) j = h_ram (hm x) j).
Proof.
  intros s dev tr fuel m0 x h va n v r R Hva Hn Hp S0 He D.
  destruct (reached_inv _ _ _ _ _ _ R) as (C & N & P & B & I & L).
  apply size_range in Hn. rewrite (phys_first tr va Hva) in *.
  destruct (mem_write_in s fuel tr C N P h va n v x r Hva ltac:(lia) L Hp S0) as (t & Lt & E).
  pose proof (pa_range tr P va Hva) as Hr.
  destruct (write_in_mem s C N m0 r _ n v (set_tlb x t) B I (proj1 Hr) ltac:(lia) S0 (proj2 Hr) He D) as (m' & E2 & _ & Hrom & Hram).
  rewrite E, E2. eexists. split; [reflexivity|]. cbn [calls hm set_tlb] in *. split; [reflexivity|]. split; [exact Hrom|]. split.
  - intros T. cbn zeta. split.
    + intros i Hi. rewrite Hram, T. rewrite (proj2 (Z.leb_le _ _)), (proj2 (Z.ltb_lt _ _)) by lia. cbn [andb]. f_equal. lia.
    + intros j Hj. rewrite Hram, T.
      destruct (_ <=? j) eqn:L1; [|reflexivity]. destruct (j <? _) eqn:L2; [|reflexivity].
      apply Z.leb_le in L1. apply Z.ltb_lt in L2. exfalso. apply Hj. split; [exact L1|exact L2].
  - intros T j. rewrite Hram. destruct (i_type (r_info r)); try reflexivity. congruence.
Qed.
Print Assumptions C90_write_memory_partial.

Theorem C90_write_device_partial : forall s dev tr fuel m0 x h va n v r hd o,
  reached s dev tr fuel m0 x -> 0 <= va < 2 ^ 32 -> In n [1; 2; 4; 8] -> in_page va n ->
  search s (phys tr va 0) = Some r -> phys tr va 0 + n - 1 <= r_end r -> device_at s (phys tr va 0) = Some (hd, o) ->
  exists y, mem_write s fuel tr h va n v x = Ok y /\ hm y = hm x /\ calls y = calls x ++ [DWrite hd o (phys tr va 0) n v].
Proof.
  intros s dev tr fuel m0 x h va n v r hd o R Hva Hn Hp S0 He D.
  destruct (reached_inv _ _ _ _ _ _ R) as (C & N & P & B & I & L).
  assert (1 <= n /\ handled n = true) as (Hn1 & Hn2) by (cbn [In] in Hn; destruct Hn as [<-|[<-|[<-|[<-|[]]]]]; split; (lia || reflexivity)).
  rewrite (phys_first tr va Hva) in *.
  destruct (mem_write_in s fuel tr C N P h va n v x r Hva Hn1 L Hp S0) as (t & Lt & E).
  rewrite (write_in_dev s r _ n v (set_tlb x t) hd o S0 D Hn2) in E.
  rewrite E. eexists. split; [reflexivity|]. split; reflexivity.
Qed.
Print Assumptions C90_write_device_partial.

Theorem C90_write_crossing : forall s dev tr fuel m0 x h va n v,
  reached s dev tr fuel m0 x -> 0 <= va < 2 ^ 32 -> size n -> ~ in_page va n ->
  exists y, mem_write s fuel tr h va n v x = Ok y /\
    same_mem (hm y) (fst (each_write s (hm x) (map (fun i => (phys tr va i, byte_of v i)) (upto n)) (calls x))) /\
    calls y = snd (each_write s (hm x) (map (fun i => (phys tr va i, byte_of v i)) (upto n)) (calls x)).
Proof.
  intros s dev tr fuel m0 x h va n v R Hva Hn Hp.
  destruct (reached_inv _ _ _ _ _ _ R) as (C & N & P & B & I).
  apply size_range in Hn.
  destruct (mem_write_cross s fuel tr C N P m0 h va n v x B I Hva ltac:(lia) Hp) as (m' & m'' & c & t & E1 & _ & E2 & E3 & _).
  rewrite E1, E2. eexists. split; [reflexivity|]. split; [exact E3|reflexivity].
Qed.
Print Assumptions C90_write_crossing.

(** What is written to ram is read back, with any mapping of the same physical address, whether
    either access finds its line or not. *)
Theorem C90_read_back : forall s dev tr fuel m0 x h h' va va' n v r,
  reached s dev tr fuel m0 x -> 0 <= va < 2 ^ 32 -> 0 <= va' < 2 ^ 32 -> size n -> in_page va n -> in_page va' n ->
  phys tr va' 0 = phys tr va 0 -> 0 <= v < 256 ^ n ->
  search s (phys tr va 0) = Some r -> phys tr va 0 + n - 1 <= r_end r -> i_type (r_info r) = ram ->
  exists y z, mem_write s fuel tr h va n v x = Ok y /\ mem_read s fuel dev tr h' va' n y = Ok (v, z).
Proof.
  intros s dev tr fuel m0 x h h' va va' n v r R Hva Hva' Hn Hp Hp' Ep Hv S0 He T.
  assert (device_at s (phys tr va 0) = None) as D by (unfold device_at; rewrite S0, T; reflexivity).
  destruct (C90_write_memory_partial s dev tr fuel m0 x h va n v r R Hva Hn Hp S0 He D) as (y & Ew & _ & _ & K & _).
  destruct (K T) as (K1 & _). cbn zeta in K1.
  assert (reached s dev tr fuel m0 y) as Ry.
  { destruct R as (C & N & P & B & l & F & E). repeat (split; [assumption|]).
    exists (l ++ [Write h va n v]). split.
    - apply Forall_app. split; [exact F|]. constructor; [split; assumption|constructor].
    - clear - E Ew. revert E. generalize (init m0) as x0. induction l as [|e l IH]; intros x0 E; cbn [run app] in *.
      + assert (x0 = x) by congruence. subst. cbn [step]. rewrite Ew. reflexivity.
      + destruct (step s fuel dev tr x0 e); cbn [bind] in *; try discriminate. apply IH, E. }
  destruct (C90_read_memory_partial s dev tr fuel m0 y h' va' n r Ry Hva' Hn Hp') as (z & Er & _); try (rewrite Ep; assumption).
  exists y, z. split; [exact Ew|]. rewrite Er. do 2 f_equal. rewrite Ep.
  apply size_range in Hn.
  transitivity (word (map (fun i => byte_of v (Z.of_nat i)) (seq 0 (Z.to_nat n)))); [|apply word_bytes; rewrite Z2Nat.id by lia; exact Hv].
  unfold upto. rewrite map_map. f_equal. apply map_ext_in. intros i Hi. apply in_seq in Hi.
  destruct (reached_inv _ _ _ _ _ _ R) as (C & N & P & B & I).
  destruct (C _ (phys_range tr P va 0)) as (r' & S1 & _ & B1 & _ & All). assert (r' = r) by congruence. subst r'.
  unfold content. rewrite All by lia. rewrite T, <- (K1 (Z.of_nat i)) by lia. f_equal. lia.
Qed.
Print Assumptions C90_read_back.

(** *** Maps made by the API that meet the hypotheses *)

Definition node_ok (m : hmem) (n : node) : bool :=
  let r := n_reg n in
  match i_type (r_info r) with
  | ram => (0 <=? i_buff_off (r_info r)) && (i_buff_off (r_info r) <=? r_start r) && (r_end r - i_buff_off (r_info r) <? h_ram_size m)
  | rom => (0 <=? i_buff_off (r_info r)) && (i_buff_off (r_info r) <=? r_start r) &&
           (r_end r - i_buff_off (r_info r) <? h_rom_size m (i_rom_ptr (r_info r)))
  | alias | pmio => false
  | _ => true
  end.
Lemma get_it_in l a n : get_it l a = Some n -> In n l.
Proof.
  unfold get_it. enough (forall c, get_it_from c l a = Some n -> c = Some n \/ In n l) as H.
  { intros E. destruct (H None E) as [X|X]; [discriminate|exact X]. }
  induction l as [|k l IH]; intros c E; cbn [get_it_from] in E; [auto|].
  destruct (n_key k <=? a); [|auto]. destruct (IH _ E) as [X|X]; [|right; right; exact X].
  right. left. congruence.
Qed.
Lemma map_reached cs s oks dev tr fuel m l x :
  Forall (call_ok 2) cs -> api_run (as_create MEM_MAX) cs = Some (s, oks) -> forallb (node_ok m) (nodes s) = true ->
  pages tr -> Forall ev_ok l -> run s fuel dev tr (init m) l = Ok x -> reached s dev tr fuel m x.
Proof.
  intros Hc E F P Fl R.
  assert (forall a r, search s a = Some r -> exists n, r = n_reg n /\ node_ok m n = true) as K.
  { intros a r H. unfold search in H. destruct (get_it (nodes s) a) as [n|] eqn:G; [|discriminate].
    exists n. split; [congruence|]. apply (proj1 (forallb_forall _ _) F), (get_it_in _ _ _ G). }
  split; [apply (api_coherent 2 cs s oks); [split; [lia|reflexivity]|exact Hc|exact E]|].
  split.
  { intros a r _ H. destruct (K a r H) as (n & -> & N). unfold node_ok in N. split; intros T; rewrite T in N; discriminate. }
  split; [exact P|]. split.
  { intros a r _ H. destruct (K a r H) as (n & -> & N). unfold node_ok in N.
    destruct (i_type (r_info (n_reg n))); try exact I;
      (apply andb_true_iff in N; destruct N as (N & N3); apply andb_true_iff in N; destruct N as (N1 & N2);
       apply Z.leb_le in N1, N2; apply Z.ltb_lt in N3; split; [split; assumption|assumption]). }
  exists l. split; assumption.
Qed.
Definition flat (p : Z) : Z := p.
Lemma flat_pages : pages flat.
Proof. intros p H. exact H. Qed.
Definition map_of (cs : list call) : aspace :=
  match api_run (as_create MEM_MAX) cs with Some (s, _) => s | None => as_create MEM_MAX end.

(** two pages of ram at 0, a device in the page at 0x2000, a device in part of the page at 0x3000
    with nothing after it, a rom at 0x4000 *)
Definition calls1 : list call :=
  [CallRam 0 8192; CallMmio 8192 4096 1 2; CallMmio 12288 256 3 4; CallRom 16384 4096 9].
Definition map1 : aspace := map_of calls1.
Definition mem1 : hmem := mk_hmem (fun i => i mod 251) 8192 (fun b i => (b + i) mod 256) (fun _ => 4096).
Definition dev1 : device := fun c h o a n => 1000 * h + a + Z.of_nat (length c).
(** memory is read and written, a device asked, lines are made, used and dropped *)
Definition hist1 : list ev :=
  [Read false 4092 8; Write true 16 4 287454020; Read true 8192 4; Drop 2; Write true 12300 2 7; Read true 20479 1; Read true 8190 4].
Definition st1 : st := match run map1 0 dev1 flat (init mem1) hist1 with Ok x => x | _ => init mem1 end.

Ltac calls_ok := repeat (constructor; [cbv; repeat split; try (left; reflexivity); try discriminate; auto|]); constructor.
Lemma map1_reached : reached map1 dev1 flat 0 mem1 st1.
Proof.
  apply (map_reached calls1 map1 [true; true; true; true] dev1 flat 0 mem1 hist1 st1).
  - calls_ok.
  - vm_compute. reflexivity.
  - vm_compute. reflexivity.
  - exact flat_pages.
  - unfold hist1. repeat (constructor; [unfold ev_ok, size; cbn [In]; lia|]). constructor.
  - unfold st1. destruct (run map1 0 dev1 flat (init mem1) hist1) eqn:E; [reflexivity| |]; exfalso;
      assert (match run map1 0 dev1 flat (init mem1) hist1 with Ok _ => true | _ => false end = true) as X by (vm_compute; reflexivity);
      rewrite E in X; discriminate.
Qed.

Definition value (x : res (Z * st)) : option Z := match x with Ok (v, _) => Some v | _ => None end.
Definition told (x : res (Z * st)) : option (list dcall) := match x with Ok (_, y) => Some (calls y) | _ => None end.
Definition is_some {A} (x : option A) : bool := match x with Some _ => true | None => false end.

(** the history told the devices what it should *)
Example C90_sat_history : calls st1 = [DRead 1 2 8192 4; DWrite 3 4 12300 2 7; DRead 1 2 8192 1; DRead 1 2 8193 1].
Proof. vm_compute. reflexivity. Qed.
Example C90_sat_memory : in_page 4000 4 /\ device_at map1 (phys flat 4000 0) = None /\
  match search map1 (phys flat 4000 0) with Some r => phys flat 4000 0 + 4 - 1 <= r_end r | None => False end /\
  value (mem_read map1 0 dev1 flat true 16 4 st1) = Some 287454020.
Proof. split; [reflexivity|]. split; [reflexivity|]. split; [vm_compute; discriminate|vm_compute; reflexivity]. Qed.
Example C90_sat_device : in_page 12300 2 /\ device_at map1 (phys flat 12300 0) = Some (3, 4) /\
  match search map1 (phys flat 12300 0) with Some r => phys flat 12300 0 + 2 - 1 <= r_end r | None => False end /\
  told (mem_read map1 0 dev1 flat true 12300 2 st1) = Some (calls st1 ++ [DRead 3 4 12300 2]).
Proof. split; [reflexivity|]. split; [reflexivity|]. split; [vm_compute; discriminate|vm_compute; reflexivity]. Qed.
(** half in ram, half in the device *)
Example C90_sat_crossing : ~ in_page 8190 4 /\
  snd (each_read map1 dev1 (hm st1) (map (phys flat 8190) (upto 4)) []) = [DRead 1 2 8192 1; DRead 1 2 8193 1].
Proof. split; [vm_compute; discriminate|vm_compute; reflexivity]. Qed.

(** *** Where the full claim is false *)

(** ram up to 0x17ff, a device from 0x1800: an access of 4 bytes at 0x17fe reads and writes bytes
    of the buffer beyond the ram, and the device, which owns two of its bytes, is not told *)
Definition calls2 : list call := [CallRam 0 6144; CallMmio 6144 2048 1 2].
Definition map2 : aspace := map_of calls2.
Theorem C90_refuted_two_regions :
  reached map2 dev1 flat 0 mem1 (init mem1) /\ in_page 6142 4 /\
  device_at map2 6144 = Some (1, 2) /\
  (forall h, told (mem_read map2 0 dev1 flat h 6142 4 (init mem1)) = Some []) /\
  (forall h, exists y, mem_write map2 0 flat h 6142 4 0 (init mem1) = Ok y /\ calls y = [] /\
     h_ram (hm (init mem1)) 6144 = 120 /\ h_ram (hm y) 6144 = 0).
Proof.
  split.
  { apply (map_reached calls2 map2 [true; true] dev1 flat 0 mem1 [] (init mem1));
      [calls_ok|vm_compute; reflexivity|vm_compute; reflexivity|exact flat_pages|constructor|reflexivity]. }
  split; [reflexivity|]. split; [vm_compute; reflexivity|]. split; [intros h; vm_compute; reflexivity|].
  intros h. destruct (mem_write map2 0 flat h 6142 4 0 (init mem1)) as [y| |] eqn:E.
  - exists y. split; [reflexivity|].
    assert (match mem_write map2 0 flat h 6142 4 0 (init mem1) with Ok y => (calls y, h_ram (hm y) 6144) | _ => ([], 1) end = ([], 0)) as X by (vm_compute; reflexivity).
    rewrite E in X. split; [congruence|]. split; [vm_compute; reflexivity|congruence].
  - exfalso. assert (match mem_write map2 0 flat h 6142 4 0 (init mem1) with Ok _ => true | _ => false end = true) as X by (vm_compute; reflexivity).
    rewrite E in X. discriminate.
  - exfalso. assert (match mem_write map2 0 flat h 6142 4 0 (init mem1) with Ok _ => true | _ => false end = true) as X by (vm_compute; reflexivity).
    rewrite E in X. discriminate.
Qed.
Print Assumptions C90_refuted_two_regions.

(** The same access when the buffer ends with the ram: the host reads and writes beyond it *)
Definition mem3 : hmem := mk_hmem (fun i => i mod 251) 6144 (fun b i => (b + i) mod 256) (fun _ => 4096).
Theorem C90_refuted_overrun :
  reached map2 dev1 flat 0 mem3 (init mem3) /\
  (forall h, mem_read map2 0 dev1 flat h 6142 4 (init mem3) = Undefined) /\
  (forall h v, mem_write map2 0 flat h 6142 4 v (init mem3) = Undefined).
Proof.
  split.
  { apply (map_reached calls2 map2 [true; true] dev1 flat 0 mem3 [] (init mem3));
      [calls_ok|vm_compute; reflexivity|vm_compute; reflexivity|exact flat_pages|constructor|reflexivity]. }
  split; intros; vm_compute; reflexivity.
Qed.
Print Assumptions C90_refuted_overrun.

(** a rom up to 0x17ff, ram from 0x1800: the bytes of an access beyond the rom read as zero *)
Definition calls4 : list call := [CallRam 0 8192; CallRom 4096 2048 9].
Definition map4 : aspace := map_of calls4.
Theorem C90_refuted_rom_end :
  reached map4 dev1 flat 0 mem1 (init mem1) /\ in_page 6142 4 /\
  content map4 mem1 6144 = 120 /\
  forall h, exists v y, mem_read map4 0 dev1 flat h 6142 4 (init mem1) = Ok (v, y) /\ byte_of v 2 = 0.
Proof.
  split.
  { apply (map_reached calls4 map4 [true; true] dev1 flat 0 mem1 [] (init mem1));
      [calls_ok|vm_compute; reflexivity|vm_compute; reflexivity|exact flat_pages|constructor|reflexivity]. }
  split; [reflexivity|]. split; [vm_compute; reflexivity|].
  intros h.
  assert (match mem_read map4 0 dev1 flat h 6142 4 (init mem1) with Ok (v, _) => byte_of v 2 =? 0 | _ => false end = true) as X by (vm_compute; reflexivity).
  destruct (mem_read map4 0 dev1 flat h 6142 4 (init mem1)) as [(v, y)| |]; try discriminate.
  exists v, y. split; [reflexivity|apply Z.eqb_eq, X].
Qed.
Print Assumptions C90_refuted_rom_end.

(** an access of 10 or 16 bytes to a device ends the host process *)
Theorem C90_refuted_wide_device : forall n, n = 10 \/ n = 16 ->
  reached map1 dev1 flat 0 mem1 st1 /\ in_page 8192 n /\ device_at map1 8192 = Some (1, 2) /\
  (forall h, mem_read map1 0 dev1 flat h 8192 n st1 = Abort) /\ (forall h v, mem_write map1 0 flat h 8192 n v st1 = Abort).
Proof.
  intros n Hn. split; [exact map1_reached|].
  destruct Hn; subst n; (split; [reflexivity|]); (split; [vm_compute; reflexivity|]); split; intros h; destruct h; vm_compute; reflexivity.
Qed.
Print Assumptions C90_refuted_wide_device.

(** Two ram regions share the buffer from its start: a byte written to one is read in the other *)
Definition calls5 : list call := [CallRam 0 4096; CallRam 65536 4096].
Definition map5 : aspace := map_of calls5.
Theorem C90_refuted_two_rams :
  reached map5 dev1 flat 0 mem1 (init mem1) /\
  forall v, 0 <= v < 256 -> exists y z, mem_write map5 0 flat false 65552 1 v (init mem1) = Ok y /\ mem_read map5 0 dev1 flat false 16 1 y = Ok (v, z).
Proof.
  assert (reached map5 dev1 flat 0 mem1 (init mem1)) as R.
  { apply (map_reached calls5 map5 [true; true] dev1 flat 0 mem1 [] (init mem1));
      [calls_ok|vm_compute; reflexivity|vm_compute; reflexivity|exact flat_pages|constructor|reflexivity]. }
  split; [exact R|]. intros v Hv.
  assert (value (bind (mem_write map5 0 flat false 65552 1 v (init mem1)) (fun y => mem_read map5 0 dev1 flat false 16 1 y)) = Some (word [byte_of v 0])) as X.
  { vm_compute. reflexivity. }
  destruct (mem_write map5 0 flat false 65552 1 v (init mem1)) as [y| |]; cbn [bind value] in X; try discriminate.
  destruct (mem_read map5 0 dev1 flat false 16 1 y) as [(w, z)| |] eqn:E2; cbn [value] in X; try discriminate.
  exists y, z. split; [reflexivity|]. rewrite E2. do 2 f_equal.
  assert (w = word [byte_of v 0]) as -> by congruence. cbn [word]. unfold byte_of. change (8 * 0) with 0.
  rewrite Z.pow_0_r, Z.div_1_r, Z.mod_small by lia. lia.
Qed.
Print Assumptions C90_refuted_two_rams.

(** An alias of 256 bytes in an otherwise empty page: once the guest used the alias, the rest of
    the page reads the memory behind the alias's target; without the line it reads as nothing *)
Definition calls6 : list call := [CallRam 0 8192; CallAlias 65536 4096 256].
Definition map6 : aspace := map_of calls6.
Theorem C90_refuted_small_alias :
  exists x, run map6 2 dev1 flat (init mem1) [Read false 65552 4] = Ok x /\
  device_at map6 67584 = None /\ content map6 mem1 67584 = 0 /\
  value (mem_read map6 2 dev1 flat false 67584 1 x) = Some 0 /\
  value (mem_read map6 2 dev1 flat true 67584 1 x) = Some (h_ram mem1 6144) /\ h_ram mem1 6144 = 120.
Proof.
  assert (match run map6 2 dev1 flat (init mem1) [Read false 65552 4] with
          | Ok x => (value (mem_read map6 2 dev1 flat false 67584 1 x), value (mem_read map6 2 dev1 flat true 67584 1 x))
          | _ => (None, None) end = (Some 0, Some 120)) as X by (vm_compute; reflexivity).
  destruct (run map6 2 dev1 flat (init mem1) [Read false 65552 4]) as [x| |]; try discriminate.
  exists x. split; [reflexivity|]. split; [vm_compute; reflexivity|]. split; [vm_compute; reflexivity|].
  assert (h_ram mem1 6144 = 120) as -> by (vm_compute; reflexivity).
  split; [congruence|]. split; [congruence|reflexivity].
Qed.
Print Assumptions C90_refuted_small_alias.

(** ** C91 *)

Definition port_ops (l : list pcall) : list asop :=
  flat_map (fun c => match port_op c with Some o => [o] | None => [] end) l.
Lemma ports_run_ops l : forall s, ports_run s l = as_run IO_MAX s (port_ops l).
Proof.
  induction l as [|c l IH]; intros s; [reflexivity|]. cbn [ports_run port_ops flat_map].
  destruct (port_op c) as [o|]; cbn [app]; [|apply IH]. cbn [as_run]. destruct (as_step IO_MAX s o); [apply IH|reflexivity].
Qed.
Lemma port_op_ok g c : 1 < g -> port_call_ok g c -> 
  exists o, port_op c = Some o /\ valid_op IO_MAX o /\ aligned_op g o /\
    op_start o = match c with PortMap st _ _ _ | PortUnmap st _ => st end /\
    op_end o + 1 = match c with PortMap st sz _ _ | PortUnmap st sz => st + sz end /\
    match c, o with
    | PortMap _ _ h od, OpInsert r => i_type (r_info r) = pmio /\ i_handlers (r_info r) = h /\ i_opaque (r_info r) = od
    | PortUnmap _ _, OpErase _ _ => True
    | _, _ => False
    end.
Proof.
  intros Hg H.
  assert (forall st sz, 0 <= st /\ 0 < sz /\ st + sz <= 65536 /\ st mod g = 0 /\ sz mod g = 0 -> (st + sz) mod g = 0) as A.
  { intros st sz (_ & _ & _ & H1 & H2). rewrite Z.add_mod, H1, H2 by lia. apply Z.mod_0_l. lia. }
  destruct c as [st sz h od|st sz]; cbn [port_call_ok] in H; pose proof (A st sz H) as A1; destruct H as (H1 & H2 & H3 & H4 & H5);
    cbn [port_op]; unfold pmio_region, destroy_io_range, last_addr, U64, IO_MAX.
  - replace (sz =? 0) with false by lia. replace (65535 <? st) with false by lia.
    rewrite (Z.mod_small (st + sz)) by lia. replace (65536 <? st + sz) with false by lia. cbn [orb].
    rewrite (Z.mod_small st (2 ^ 16)) by lia. rewrite (Z.mod_small (st + sz - 1) (2 ^ 64)) by lia.
    rewrite Z.min_l by lia. rewrite (Z.mod_small (st + sz - 1)) by lia. cbn [option_map].
    eexists. split; [reflexivity|]. unfold valid_op, aligned_op. cbn [op_start op_end r_start r_end r_info i_type i_handlers i_opaque].
    replace (st + sz - 1 + 1) with (st + sz) by lia.
    split; [split; [lia|split; [lia|discriminate]]|]. split; [split; assumption|]. split; [reflexivity|]. split; [reflexivity|]. repeat split.
  - rewrite (Z.mod_small st (2 ^ 16)) by lia. rewrite (Z.mod_small (st + sz - 1) (2 ^ 64)) by lia. rewrite Z.min_l by lia.
    eexists. split; [reflexivity|]. unfold valid_op, aligned_op. cbn [op_start op_end fst snd].
    replace (st + sz - 1 + 1) with (st + sz) by lia.
    split; [split; [lia|split; [lia|exact I]]|]. split; [split; assumption|]. split; [reflexivity|]. split; [reflexivity|exact I].
Qed.
Definition owned (i : rinfo) (w : option (Z * Z)) : Prop :=
  match w with Some (h, o) => i_type i = pmio /\ i_handlers i = h /\ i_opaque i = o | None => i_type i = unmapped end.
Lemma owner_ideal g l p : 1 < g -> Forall (port_call_ok g) l -> forall f w, owned (f p) w ->
  owned (ideal_run f (port_ops l) p) (port_owner w l p).
Proof.
  intros Hg. induction 1 as [|c l H F IH]; intros f w K; [exact K|].
  destruct (port_op_ok g c Hg H) as (o & E & _ & _ & S0 & E0 & M0).
  cbn [port_ops flat_map]. rewrite E. cbn [app]. unfold ideal_run. cbn [fold_left].
  destruct c as [st sz h od|st sz], o as [r|a b]; try contradiction; cbn [op_start op_end] in S0, E0; cbn [port_owner]; apply IH; cbn [ideal_step].
  - replace (p <=? r_end r) with (p <? st + sz) by lia. rewrite S0.
    destruct ((st <=? p) && (p <? st + sz)); [exact M0|exact K].
  - replace (p <=? b) with (p <? st + sz) by lia. rewrite S0.
    destruct ((st <=? p) && (p <? st + sz)); [reflexivity|exact K].
Qed.

(** After any history of port regions made and destroyed in units of at least two ports, an access
    of any width to a port is one call of the device of the last call over the port, with its
    pointer, the port number and the width; a port of no device reads zero and does nothing. *)
Theorem C91_port_partial : forall g l dev p n v c,
  1 < g -> 65536 mod g = 0 -> Forall (port_call_ok g) l -> 0 <= p < 65536 ->
  exists s, ports_run (as_create IO_MAX) l = Some s /\
  match port_owner None l p with
  | Some (h, o) => port_read s dev p n c = Ok (dev c h o p n mod 2 ^ (8 * n), c ++ [DRead h o p n]) /\
                   port_write s p n v c = Ok (c ++ [DWrite h o p n v])
  | None => port_read s dev p n c = Ok (0, c) /\ port_write s p n v c = Ok c
  end.
Proof.
  intros g l dev p n v c Hg Hd F Hp.
  assert (safe_history IO_MAX (as_create IO_MAX) (port_ops l)) as Sf.
  { apply (RegionApiProofs.aligned_history_safe IO_MAX g); [unfold IO_MAX; lia|lia|exact Hd|].
    clear - F Hg. induction F as [|c l H F IH]; [constructor|].
    destruct (port_op_ok g c Hg H) as (o & E & V & A & _). cbn [port_ops flat_map]. rewrite E. constructor; [split; assumption|exact IH]. }
  destruct (RegionApiProofs.most_recent_wins IO_MAX (port_ops l) ltac:(unfold IO_MAX; lia) Sf) as (s & E & L).
  exists s. rewrite ports_run_ops. split; [exact E|].
  specialize (L p ltac:(unfold IO_MAX; lia)).
  pose proof (owner_ideal g l p Hg F ideal_init None eq_refl) as O.
  unfold lookup in L. unfold port_read, port_write. destruct (search s p) as [r|]; [|discriminate].
  cbn [option_map] in L. assert (r_info r = ideal_run ideal_init (port_ops l) p) as Er by congruence. rewrite <- Er in O.
  cbn [of_opt bind]. unfold owned in O. destruct (port_owner None l p) as [(h, o)|].
  - destruct O as (-> & -> & ->). split; reflexivity.
  - rewrite O. split; reflexivity.
Qed.
Print Assumptions C91_port_partial.

(** a device at 0x60-0x6f, replaced at 0x64-0x67, unmapped at 0x68-0x69 *)
Definition ports1 : list pcall := [PortMap 96 16 1 2; PortMap 100 4 3 4; PortUnmap 104 2].
Example C91_sat : Forall (port_call_ok 2) ports1 /\ map (port_owner None ports1) [96; 100; 103; 104; 106; 112] =
  [Some (1, 2); Some (3, 4); Some (3, 4); None; Some (1, 2); None].
Proof. split; [repeat constructor; discriminate|reflexivity]. Qed.

(** An access of two or four bytes is seen by the device of its first port alone, although the
    next port belongs to another device *)
Theorem C91_refuted_next_port : exists s, ports_run (as_create IO_MAX) ports1 = Some s /\
  port_owner None ports1 100 = Some (3, 4) /\
  forall v c, port_write s 98 4 v c = Ok (c ++ [DWrite 1 2 98 4 v]) /\
              port_write s 103 2 v c = Ok (c ++ [DWrite 3 4 103 2 v]).
Proof.
  eexists. split; [vm_compute; reflexivity|]. split; [reflexivity|]. intros v c. split; vm_compute; reflexivity.
Qed.
Print Assumptions C91_refuted_next_port.


(** A region that ends on the first port of another takes all ports of that other region *)
Definition ports2 : list pcall := [PortMap 96 4 1 2; PortMap 100 4 3 4; PortMap 98 3 5 6].
Theorem C91_refuted_odd_ports : exists s, ports_run (as_create IO_MAX) ports2 = Some s /\
  port_owner None ports2 102 = Some (3, 4) /\
  forall v c, port_write s 102 1 v c = Ok (c ++ [DWrite 5 6 102 1 v]).
Proof.
  eexists. split; [vm_compute; reflexivity|]. split; [reflexivity|]. intros v c. vm_compute; reflexivity.
Qed.
Print Assumptions C91_refuted_odd_ports.
