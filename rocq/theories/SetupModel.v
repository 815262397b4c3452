(** Model of init_memory as a whole (physical_allocator.cpp:89-263): what it reads, where it puts its tables, which pages it
    marks and what it does to the address space. sizeof(struct Page) and sizeof(struct Zone) come from a header that is not
    in the repository: they are the parameters [szp] and [szz]. *)
From stdpp Require Import list.
From Coq Require Import NArith.
From Verif Require Import Base E820Model PageModel PagingModel.
Local Open Scope N_scope.
Local Open Scope outcome_scope.

(** 98-115: mm_struct.e820[32] and e820_length. The loop over the records is that of e820.cpp (E820Model.scan) with 32 turns; address
    and length are added to what the table holds. *)
Record table := { t_rows : list e820_entry; t_len : nat }.
(** 106-110: address and length are added to what is there, the type is assigned *)
Definition add_row (old e : e820_entry) : e820_entry :=
  {| e_addr := (e_addr old + e_addr e) mod W64; e_len := (e_len old + e_len e) mod W64; e_type := e_type e |}.
(** as above, 98-115 *)
Definition read_rows (m : bytes) (t : table) : table * N :=
  let (es, total) := scan m e820_addr 32 0 in
  ({| t_rows := zip_with add_row (t_rows t) es ++ drop (length es) (t_rows t);
      t_len := match es with [] => t_len t | _ => length es - 1 end |}, total).
(** 160: the rows from 0 to e820_length *)
Definition rows_used (t : table) : list e820_entry := take (S (t_len t)) (t_rows t).

(** 127, 141, 152: (x + PAGE_4K_SIZE - 1) & PAGE_4K_MASK *)
Definition align4k (x : N) : N := N.land ((x + 4095) mod W64) (W64 - 4096).
(** x & ~(sizeof(long) - 1) *)
Definition down8 (x : N) : N := N.land x (W64 - 8).
(** model only: where the tables lie *)
Record layout := { l_bits : N; l_bits_len : N; l_pages : N; l_pages_len : N; l_zones : N; l_zones_len : N; l_end : N }.
(** 127-156, 219, 242; [brk] is end_brk, [nz] the final zones_size *)
Definition lay (szp szz brk total nz : N) : layout :=
  let bits := align4k brk in
  let bits_len := (total / P2M + 63) / 8 in
  let pages := align4k ((bits + bits_len) mod W64) in
  let pages_len := down8 ((total / P2M * szp + 7) mod W64) in
  let zones := align4k ((pages + pages_len) mod W64) in
  let zones_len := down8 ((nz * szz + 7) mod W64) in
  {| l_bits := bits; l_bits_len := bits_len; l_pages := pages; l_pages_len := pages_len; l_zones := zones; l_zones_len := zones_len;
     l_end := down8 ((zones + zones_len + 256) mod W64) |}.
(** the offset of Phy_To_Virt *)
Definition HIGH : N := 0xffff800000000000.
(** 246: Virt_To_Phy subtracts the base of the high half *)
Definition last_page (l : layout) : N := ((l_end l + (W64 - HIGH)) mod W64) / P2M.

(** 34-57 on records that may never have been written: reading one that was not is [UB] *)
Definition put_zone (z : zone) (fresh ref : bool) : zone :=
  {| z_start := z_start z; z_end := z_end z; z_using := if fresh then inc (z_using z) else z_using z;
     z_free := if fresh then dec (z_free z) else z_free z; z_links := if fresh || ref then inc (z_links z) else z_links z |}.
(** as above, 34-57 *)
Definition mark_page (pgref pgshare flags : N) (j : N) (s : setup) : outcome setup :=
  p <~ of_option (s_pages s j) ;
  z <~ of_option (s_zones s !! pg_zone p) ;
  let fresh := pg_attr p =? 0 in
  let ref := negb fresh && (referenced pgref pgshare (pg_attr p) || referenced pgref pgshare flags) in
  Ok {| s_bits := if ref then s_bits s else set_bit (s_bits s) (pg_phy p);
        s_pages := fun x => if x =? j then Some {| pg_attr := N.lor (pg_attr p) flags; pg_refs := if fresh || ref then inc (pg_refs p) else pg_refs p;
                                                   pg_phy := pg_phy p; pg_zone := pg_zone p |} else s_pages s x;
        s_zones := <[pg_zone p := put_zone z fresh ref]> (s_zones s) |}.
(** 248-251 *)
Fixpoint mark_pages (pgref pgshare flags : N) (n : nat) (j : N) (s : setup) : outcome setup :=
  match n with
  | O => Ok s
  | S n => s <~ mark_page pgref pgshare flags j s ; mark_pages pgref pgshare flags n (j + 1) s
  end.
(** 212-217 *)
Definition with_page0 (s : setup) : setup :=
  {| s_bits := s_bits s; s_pages := fun x => if x =? 0 then Some page0 else s_pages s x; s_zones := s_zones s |}.

(** 253-262: ten 64-bit writes at Phy_To_Virt(Global_CR3), each through the page tables as they are then ([walk]). Get_gdt of line
    253 is in the missing header too: Global_CR3 is taken to be what its name says, the value of cr3 (head.S:23-24). A write that does not translate is [UB]. [m] are the 64-bit words of physical memory. *)
Definition write_va (m : N -> N) (va v : N) : outcome (N -> N) :=
  match walk m va with
  | Some t => if writable t then Ok (fun a => if a =? phys t then v else m a) else UB
  | None => UB
  end.
(** as above, 253-262 *)
Fixpoint drop_low (n : nat) (i : N) (m : N -> N) : outcome (N -> N) :=
  match n with
  | O => Ok m
  | S n => m <~ write_va m (HIGH + cr3 + 8 * i) 0 ; drop_low n (i + 1) m
  end.

(** 89-263. [m]: memory as bytes while the map is read, [words]: memory as words for the page tables. *)
Record result := { r_table : table; r_layout : layout; r_setup : setup; r_words : N -> N }.
(** as above, 89-263 *)
Definition init_memory_all (szp szz pgref pgshare flags brk : N) (m : bytes) (t : table) (words : N -> N) : outcome result :=
  let (t, total) := read_rows m t in
  let s := setup_zones (rows_used t) in
  let l := lay szp szz brk total (N.of_nat (length (s_zones s))) in
  s <~ mark_pages pgref pgshare flags (S (N.to_nat (last_page l))) 0 (with_page0 s) ;
  words <~ drop_low 10 0 words ;
  Ok {| r_table := t; r_layout := l; r_setup := s; r_words := words |}.
