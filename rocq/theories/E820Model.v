(** Model of the memory map: bootloader/loader.asm:328-342 stores it, kernel/src/core/e820.cpp
    reads it. *)
From stdpp Require Import list.
From Coq Require Import NArith.
Local Open Scope N_scope.

(** e820.hpp:6-10 *)
Record e820_entry := { e_addr : N; e_len : N; e_type : N }.

(** Physical memory as bytes. *)
Notation bytes := (N -> N).
(** model only: little-endian numbers and bytes of memory *)
Fixpoint le_val (bs : list N) : N := match bs with [] => 0 | b :: bs => b + 256 * le_val bs end.
(** model only: little-endian numbers and bytes of memory *)
Fixpoint le_bytes (n : nat) (x : N) : list N :=
  match n with O => [] | S n => x mod 256 :: le_bytes n (x / 256) end.
(** model only: little-endian numbers and bytes of memory *)
Fixpoint load (m : bytes) (a : N) (n : nat) : list N :=
  match n with O => [] | S n => m a :: load m (a + 1) n end.
(** model only: little-endian numbers and bytes of memory *)
Fixpoint store (m : bytes) (a : N) (bs : list N) : bytes :=
  match bs with
  | [] => m
  | b :: bs => store (fun x => if x =? a then b else m x) (a + 1) bs
  end.

(** loader.asm:333-341: each BIOS call stores one 20-byte record at es:di and di advances by 20.
    Nothing is stored after the last record. *)
Definition entry_bytes (e : e820_entry) : list N :=
  le_bytes 8 (e_addr e) ++ le_bytes 8 (e_len e) ++ le_bytes 4 (e_type e).
(** as above, loader.asm:333-341 *)
Fixpoint store_map (m : bytes) (a : N) (es : list e820_entry) : bytes :=
  match es with [] => m | e :: es => store_map (store m a (entry_bytes e)) (a + 20) es end.

(** e820.cpp:26, 37-39: the record at [a] (packed, 20 bytes) *)
Definition read_entry (m : bytes) (a : N) : e820_entry :=
  {| e_addr := le_val (load m a 8); e_len := le_val (load m (a + 8) 8); e_type := le_val (load m (a + 16) 4) |}.

(** e820.cpp:25-45: [i] counts the iterations left of max_size (e820.hpp:24).
    The entries copied and the value of avaliable_memory_. *)
Fixpoint scan (m : bytes) (a : N) (i : nat) (avail : N) : list e820_entry * N :=
  match i with
  | O => ([], avail)
  | S i =>
      let e := read_entry m a in
      if (4 <? e_type e) || (e_len e =? 0) || (e_type e <? 1) then ([], avail)
      else
        let avail := if e_type e =? 1 then (avail + e_len e) mod 2 ^ 64 else avail in
        let (es, av) := scan m (a + 20) i avail in (e :: es, av)
  end.
Definition e820_addr : N := 0x7E00.  (* physical; e820.hpp:25 through the high mapping *)
Definition e820_init (m : bytes) : list e820_entry * N := scan m e820_addr 20 0.
