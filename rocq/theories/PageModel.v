(** Model of kernel/src/core/physical_allocator.cpp. The header it includes is not in the repository:
    PAGE_2M_SHIFT is 21, counters are 64-bit unsigned, PG_Referenced and PG_K_Share_To_U are
    parameters. *)
From stdpp Require Import list.
From Coq Require Import NArith.
From Verif Require Import Base E820Model.
Local Open Scope N_scope.
Local Open Scope outcome_scope.

(** model only: unsigned 64-bit arithmetic *)
Definition W64 : N := 2 ^ 64.
(** model only: unsigned 64-bit arithmetic *)
Definition inc (x : N) : N := (x + 1) mod W64.
(** model only: unsigned 64-bit arithmetic *)
Definition dec (x : N) : N := (x + (W64 - 1)) mod W64.

(** struct Page; [pg_zone] is the index of *zone_struct, [pg_phy] is PHY_address >> PAGE_2M_SHIFT. *)
Record page := { pg_attr : N; pg_refs : N; pg_phy : N; pg_zone : nat }.
(** struct Zone; start and end are zone_start_address, zone_end_address >> PAGE_2M_SHIFT. *)
Record zone := { z_start : N; z_end : N; z_using : N; z_free : N; z_links : N }.
(** mm_struct: bits_map (64-bit words), pages_struct, zones_struct. *)
Record mm := { bits : N -> N; pages : list page; zones : list zone }.

(** *(bits_map + (phy >> 6)) |= 1UL << phy % 64 (lines 38, 53) and &= ~(...) (line 78). *)
Definition set_bit (m : N -> N) (phy : N) : N -> N :=
  fun w => if w =? phy / 64 then N.lor (m w) (N.shiftl 1 (phy mod 64)) else m w.
(** 78 *)
Definition clear_bit (m : N -> N) (phy : N) : N -> N :=
  fun w => if w =? phy / 64 then N.ldiff (m w) (N.shiftl 1 (phy mod 64)) else m w.

(** Write back a page and its zone. *)
Definition put (s : mm) (b : N -> N) (i : nat) (p : page) (z : zone) : mm :=
  {| bits := b; pages := <[i := p]> (pages s); zones := <[pg_zone p := z]> (zones s) |}.

(** 45, 65: x & PG_Referenced or x & PG_K_Share_To_U *)
Definition referenced (pgref pgshare a : N) : bool := negb (N.land a pgref =? 0) || negb (N.land a pgshare =? 0).

(** lines 34-57. Page or zone pointers outside their arrays are [UB]. *)
Definition page_init (pgref pgshare : N) (s : mm) (i : nat) (flags : N) : outcome mm :=
  p <~ of_option (pages s !! i) ;
  z <~ of_option (zones s !! pg_zone p) ;
  if pg_attr p =? 0 then
    Ok (put s (set_bit (bits s) (pg_phy p)) i
          {| pg_attr := flags; pg_refs := inc (pg_refs p); pg_phy := pg_phy p; pg_zone := pg_zone p |}
          {| z_start := z_start z; z_end := z_end z; z_using := inc (z_using z); z_free := dec (z_free z);
             z_links := inc (z_links z) |})
  else if referenced pgref pgshare (pg_attr p) || referenced pgref pgshare flags then
    Ok (put s (bits s) i
          {| pg_attr := N.lor (pg_attr p) flags; pg_refs := inc (pg_refs p); pg_phy := pg_phy p; pg_zone := pg_zone p |}
          {| z_start := z_start z; z_end := z_end z; z_using := z_using z; z_free := z_free z;
             z_links := inc (z_links z) |})
  else
    Ok (put s (set_bit (bits s) (pg_phy p)) i
          {| pg_attr := N.lor (pg_attr p) flags; pg_refs := pg_refs p; pg_phy := pg_phy p; pg_zone := pg_zone p |} z).

(** lines 59-87 *)
Definition page_clean (pgref pgshare : N) (s : mm) (i : nat) : outcome mm :=
  p <~ of_option (pages s !! i) ;
  z <~ of_option (zones s !! pg_zone p) ;
  if pg_attr p =? 0 then Ok s
  else if referenced pgref pgshare (pg_attr p) then
    let refs := dec (pg_refs p) in
    if refs =? 0 then
      Ok (put s (bits s) i
            {| pg_attr := 0; pg_refs := refs; pg_phy := pg_phy p; pg_zone := pg_zone p |}
            {| z_start := z_start z; z_end := z_end z; z_using := dec (z_using z); z_free := inc (z_free z);
               z_links := dec (z_links z) |})
    else
      Ok (put s (bits s) i
            {| pg_attr := pg_attr p; pg_refs := refs; pg_phy := pg_phy p; pg_zone := pg_zone p |}
            {| z_start := z_start z; z_end := z_end z; z_using := z_using z; z_free := z_free z;
               z_links := dec (z_links z) |})
  else
    Ok (put s (clear_bit (bits s) (pg_phy p)) i
          {| pg_attr := 0; pg_refs := 0; pg_phy := pg_phy p; pg_zone := pg_zone p |}
          {| z_start := z_start z; z_end := z_end z; z_using := dec (z_using z); z_free := inc (z_free z);
             z_links := dec (z_links z) |}).

(** Histories of calls. *)
Inductive page_op := OpInit (i : nat) (flags : N) | OpClean (i : nat).
(** model only: one operation of a program *)
Definition page_step (pgref pgshare : N) (s : mm) (op : page_op) : outcome mm :=
  match op with
  | OpInit i flags => page_init pgref pgshare s i flags
  | OpClean i => page_clean pgref pgshare s i
  end.
(** model only: the operations of a program in order *)
Fixpoint page_run (pgref pgshare : N) (s : mm) (ops : list page_op) : outcome mm :=
  match ops with
  | [] => Ok s
  | op :: ops => s <~ page_step pgref pgshare s op ; page_run pgref pgshare s ops
  end.

(** `x << n` on unsigned long. With [hw] an over-wide count is taken modulo 64 as the x86 instruction
    does; otherwise it is undefined as in C++. *)
Definition shl64 (hw : bool) (x n : N) : outcome N :=
  if n <? 64 then Ok (N.shiftl x n mod W64)
  else if hw then Ok (N.shiftl x (n mod 64) mod W64) else UB.

(** line 333: no bit of [number] bits from bit k of word w is set *)
Definition run_free (hw : bool) (m : N -> N) (w k number : N) : outcome bool :=
  hi <~ shl64 hw (m (w + 1)) (64 - k) ;
  one <~ (if number =? 64 then Ok (W64 - 1) else x <~ shl64 hw 1 number ; Ok ((x + (W64 - 1)) mod W64)) ;
  Ok (N.land (N.lor (N.shiftr (m w) k) hi) one =? 0).

(** line 331: k from [k] while k < 64 - shift, [n] iterations left *)
Fixpoint scan_word (hw : bool) (m : N -> N) (w : N) (number : N) (n : nat) (k : N) : outcome (option N) :=
  match n with
  | O => Ok None
  | S n =>
      f <~ run_free hw m w k number ;
      if f then Ok (Some k) else scan_word hw m w number n (k + 1)
  end.

(** lines 326-345: page found, as computed by line 336. The fuel is the number of words that can
    start between start and end. *)
Fixpoint scan_zone (hw : bool) (fuel : nat) (m : N -> N) (number tmp e j : N) : outcome (option N) :=
  match fuel with
  | O => Fuel
  | S fuel =>
      if e <? j then Ok None
      else
        let shift := j mod 64 in
        r <~ scan_word hw m (j / 64) number (N.to_nat (64 - shift) - N.to_nat shift) shift ;
        match r with
        | Some k => Ok (Some ((j + k + (W64 - 1)) mod W64))
        | None => scan_zone hw fuel m number tmp e (if j mod 64 =? 0 then j + 64 else j + tmp)
        end
  end.

(** lines 337-341 *)
Fixpoint init_pages (pgref pgshare : N) (s : mm) (pg : nat) (n : nat) (flags : N) : outcome mm :=
  match n with
  | O => Ok s
  | S n => s <~ page_init pgref pgshare s pg flags ; init_pages pgref pgshare s (S pg) n flags
  end.

(** lines 309-353: zones [i], [i+1], ..., [n] of them (zone_start..zone_end). Some: index of the page
    returned. *)
Fixpoint alloc_zones (hw : bool) (pgref pgshare : N) (s : mm) (i n : nat) (number flags : N) : outcome (option N * mm) :=
  match n with
  | O => Ok (None, s)
  | S n =>
      z <~ of_option (zones s !! i) ;
      if z_free z <? number then alloc_zones hw pgref pgshare s (S i) n number flags
      else
        r <~ scan_zone hw (N.to_nat (z_end z - z_start z) + 2) (bits s) number (64 - z_start z mod 64) (z_end z) (z_start z) ;
        match r with
        | Some pg => s <~ init_pages pgref pgshare s (N.to_nat pg) (N.to_nat number) flags ; Ok (Some pg, s)
        | None => alloc_zones hw pgref pgshare s (S i) n number flags
        end
  end.

(** lines 283-307: the zone ranges. ZONE_DMA_INDEX and ZONE_NORMAL_INDEX are 0 (lines 229-230). *)
Inductive zone_select := ZONE_DMA | ZONE_NORMAL | ZONE_UNMAPED | ZONE_OTHER.
(** as above, 283-307; 229-230 *)
Definition alloc_pages (hw : bool) (pgref pgshare : N) (unmapped : nat) (s : mm) (sel : zone_select) (number flags : N)
  : outcome (option N * mm) :=
  match sel with
  | ZONE_DMA | ZONE_NORMAL => alloc_zones hw pgref pgshare s 0 1 number flags
  | ZONE_UNMAPED => alloc_zones hw pgref pgshare s unmapped (length (zones s) - unmapped) number flags
  | ZONE_OTHER => Ok (None, s)
  end.

(** lines 160-208: zones, page records and bitmap from the map, index [zi] = zones_size. PAGE_2M_ALIGN
    rounds up. The page array is written at index start + j whatever its size, so it is kept
    here as a function. *)
Definition P2M : N := 2097152.
(** as above, 160-208 *)
Definition toggle_bit (m : N -> N) (phy : N) : N -> N :=
  fun w => if w =? phy / 64 then N.lxor (m w) (N.shiftl 1 (phy mod 64)) else m w.
(** as above, 160-208 *)
Record setup := { s_bits : N -> N; s_pages : N -> option page; s_zones : list zone }.
(** as above, 160-208 *)
Fixpoint setup_pages (n : nat) (zi : nat) (phy : N) (b : N -> N) (ps : N -> option page) : (N -> N) * (N -> option page) :=
  match n with
  | O => (b, ps)
  | S n =>
      setup_pages n zi (phy + 1) (toggle_bit b phy)
        (fun x => if x =? phy then Some {| pg_attr := 0; pg_refs := 0; pg_phy := phy; pg_zone := zi |} else ps x)
  end.
(** as above, 160-208 *)
Definition entry_start (e : e820_entry) : N := ((e_addr e + (P2M - 1)) mod W64) / P2M.
(** as above, 160-208 *)
Definition entry_end (e : e820_entry) : N := ((e_addr e + e_len e) mod W64) / P2M.
(** as above, 160-208 *)
Definition setup_entry (s : setup) (e : e820_entry) : setup :=
  if negb (e_type e =? 1) then s
  else if entry_end e <=? entry_start e then s
  else
    let n := entry_end e - entry_start e in
    let (b, ps) := setup_pages (N.to_nat n) (length (s_zones s)) (entry_start e) (s_bits s) (s_pages s) in
    {| s_bits := b; s_pages := ps;
       s_zones := s_zones s ++ [ {| z_start := entry_start e; z_end := entry_end e; z_using := 0; z_free := n; z_links := 0 |} ] |}.
(** as above, 160-208 *)
Definition setup_zones (es : list e820_entry) : setup :=
  fold_left setup_entry es {| s_bits := fun _ => W64 - 1; s_pages := fun _ => None; s_zones := [] |}.
(** lines 129, 143: capacity of the bitmap in bits and of the page array. *)
Definition page_capacity (es : list e820_entry) : N :=
  (fold_left (fun t e => if e_type e =? 1 then (t + e_len e) mod W64 else t) es 0) / P2M.

(** lines 212-217: record 0 is overwritten; it points to zone 0 whatever that zone's range. Records never
    written (the memset of line 147 is commented out) make the result None. *)
Definition page0 : page := {| pg_attr := 0; pg_refs := 0; pg_phy := 0; pg_zone := 0 |}.
(** as above, 212-217 *)
Definition boot_pages (ps : N -> option page) (n : nat) : option (list page) :=
  mapM (fun i => if (i =? 0)%nat then Some page0 else ps (N.of_nat i)) (seq 0 n).
(** lines 160-251: [last] is the index i of line 246, [flags] the flags of line 250. *)
Definition init_memory (pgref pgshare : N) (es : list e820_entry) (last : nat) (flags : N) : outcome mm :=
  let s := setup_zones es in
  ps <~ of_option (boot_pages (s_pages s) (N.to_nat (page_capacity es))) ;
  page_run pgref pgshare {| bits := s_bits s; pages := ps; zones := s_zones s |}
    (map (fun j => OpInit j flags) (seq 0 (S last))).
