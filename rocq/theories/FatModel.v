(** Model of the floppy boot code: bootloader/boot.asm:49-236, bootloader/loader.asm:114-311 and
    bootloader/fat12.inc. Both files carry the same Read_One_Sector, Get_FAT_Entry and search. *)
From stdpp Require Import list.
From Coq Require Import NArith.
From Verif Require Import Base E820Model.
Local Open Scope N_scope.
Local Open Scope outcome_scope.

(** fat12.inc:1-15 *)
Definition RootDirSectors : N := 14.
(** as above, fat12.inc:1-15 *)
Definition RootDirStartSectorNum : N := 19.
(** as above, fat12.inc:1-15 *)
Definition SectorNumOfFAT1Start : N := 1.
(** as above, fat12.inc:1-15 *)
Definition SectorBalance : N := 17.
(** as above, fat12.inc:1-15 *)
Definition BPB_BytesPerSec : N := 512.
(** as above, fat12.inc:1-15 *)
Definition BPB_SecPerTrk : N := 18.
Definition ItemNumberPerSectors : nat := 16.   (* boot.asm:4, loader.asm:11 *)
Definition ItemFileNameLen : nat := 11.        (* boot.asm:3, loader.asm:12 *)

(** 16-bit addition *)
Definition add16 (x y : N) : N := (x + y) mod 65536.
(** model only: 32-bit addition *)
Definition add32 (x y : N) : N := (x + y) mod 4294967296.

(** What int 13h, ah=2 is asked for: al sectors from cylinder ch, head dh, sector cl. *)
Record request := { rq_cyl : N; rq_head : N; rq_sec : N; rq_count : N }.

(** boot.asm:170-182, loader.asm:191-203: `div bl` divides ax by the 8-bit bl; a quotient above 255
    raises a divide error ([UB]). Remainder in ah, quotient in al. *)
Definition chs (ax cl : N) : outcome request :=
  let al := ax / BPB_SecPerTrk in
  let ah := ax mod BPB_SecPerTrk in
  if 256 <=? al then UB
  else Ok {| rq_cyl := N.shiftr al 1; rq_head := N.land al 1; rq_sec := (ah + 1) mod 256; rq_count := cl |}.

(** The BIOS and a 1.44 MB drive: 80 cylinders, 2 heads, sectors 1..18; [disk] gives the byte at each
    offset of the image. A request outside the geometry or past the end of a track reports carry. *)
Definition rq_lba (r : request) : N := (rq_cyl r * 2 + rq_head r) * 18 + (rq_sec r - 1).
(** int 13h, function 2: the requests a drive accepts and the bytes it yields *)
Definition rq_valid (r : request) : bool :=
  (rq_cyl r <? 80) && (rq_head r <? 2) && (1 <=? rq_sec r) && (1 <=? rq_count r) &&
  (rq_sec r + rq_count r <=? 19).
(** int 13h, function 2: the requests a drive accepts and the bytes it yields *)
Definition bios_read (disk : bytes) (r : request) : option (list N) :=
  if rq_valid r then Some (load disk (rq_lba r * 512) (512 * N.to_nat (rq_count r))) else None.

(** boot.asm:163-187, loader.asm:184-208: the same request is repeated while the BIOS reports carry
    (line 184 / 205), so a request that always fails never returns ([Fuel]). [dst] is es*16+bx. *)
Definition read_one_sector (disk m : bytes) (ax cl dst : N) : outcome bytes :=
  rq <~ chs ax cl ;
  match bios_read disk rq with
  | Some bs => Ok (store m dst bs)
  | None => Fuel
  end.

(** [es:di] as a word *)
Definition word_at (m : bytes) (a : N) : N := m a + 256 * m (a + 1).

(** boot.asm:193-232, loader.asm:210-247. `mul bx` puts the 32-bit product in dx:ax and `div bx`
    divides dx:ax (a quotient above 65535 raises a divide error). *)
Definition get_fat_entry (disk m : bytes) (ax : N) : outcome (N * bytes) :=
  let dxax := ax * 3 in
  if 65536 <=? dxax / 2 then UB else
  let odd := negb (dxax mod 2 =? 0) in
  let ax := dxax / 2 in
  let dx := ax mod BPB_BytesPerSec in
  let ax := ax / BPB_BytesPerSec in
  let bx := 0x8000 in
  m <~ read_one_sector disk m (add16 ax SectorNumOfFAT1Start) 2 bx ;
  let ax := word_at m (add16 bx dx) in
  let ax := if odd then N.shiftr ax 4 else ax in
  Ok (N.land ax 0xfff, m).

(** boot.asm:74-87, loader.asm:137-148: [name] is the 11-byte name the code was assembled with, of
    which [si] bytes have been consumed. Result: matched?, di. *)
Fixpoint cmp_file_name (m name : bytes) (cx : nat) (si di : N) : bool * N :=
  match cx with
  | O => (true, di)
  | S cx => if name si =? m di then cmp_file_name m name cx (add16 si 1) (add16 di 1) else (false, di)
  end.

(** boot.asm:67-94, loader.asm:131-155: the items of the sector in the buffer. *)
Fixpoint search_items (m name : bytes) (dx : nat) (di : N) : option N :=
  match dx with
  | O => None
  | S dx =>
      let (found, di) := cmp_file_name m name ItemFileNameLen 0 di in
      if found then Some di else search_items m name dx (add16 (N.land di 0xffe0) 0x20)
  end.

(** boot.asm:51-65, 152-155, loader.asm:116-129, 173-176: [n] is RootDirSizeForLoop.
    Some: di after the match. *)
Fixpoint search_root (disk m name : bytes) (n : nat) (sector : N) : outcome (option N * bytes) :=
  match n with
  | O => Ok (None, m)
  | S n =>
      m <~ read_one_sector disk m sector 1 0x8000 ;
      match search_items m name ItemNumberPerSectors 0x8000 with
      | Some di => Ok (Some di, m)
      | None => search_root disk m name n (add16 sector 1)
      end
  end.

(** boot.asm:49-116, loader.asm:114-259: the first cluster found, if any. *)
Definition find_file (disk m name : bytes) : outcome (option N * bytes) :=
  '(r, m) <~ search_root disk m name 14 RootDirStartSectorNum ;
  match r with
  | None => Ok (None, m)
  | Some di => Ok (Some (word_at m (add16 (N.land di 0xffe0) 0x1a)), m)
  end.

(** boot.asm:118-119, 142-144, loader.asm:261-262, 308-310 *)
Definition cluster_sector (c : N) : N := add16 (add16 c RootDirSectors) SectorBalance.

(** boot.asm:125-146: [c] is the cluster on the stack; the buffer is 1000h:bx. *)
Fixpoint load_loader (fuel : nat) (disk m : bytes) (c bx : N) : outcome bytes :=
  match fuel with
  | O => Fuel
  | S fuel =>
      m <~ read_one_sector disk m (cluster_sector c) 1 (0x10000 + bx) ;
      '(ax, m) <~ get_fat_entry disk m c ;
      if ax =? 0xfff then Ok m else load_loader fuel disk m ax (add16 bx BPB_BytesPerSec)
  end.

(** loader.asm:287-292: cx bytes from [esi] to [edi]; the registers are 32 bits wide. *)
Fixpoint mov_kernel (cx : nat) (m : bytes) (esi edi : N) : bytes * N :=
  match cx with
  | O => (m, edi)
  | S cx => mov_kernel cx (fun x => if x =? edi then m esi else m x) (add32 esi 1) (add32 edi 1)
  end.

(** loader.asm:268-311: each sector goes through the buffer 0:7E00h to [KernelOffset] = [edi]. *)
Fixpoint load_kernel (fuel : nat) (disk m : bytes) (c edi : N) : outcome (bytes * N) :=
  match fuel with
  | O => Fuel
  | S fuel =>
      m <~ read_one_sector disk m (cluster_sector c) 1 0x7e00 ;
      let (m, edi) := mov_kernel 512 m 0x7e00 edi in
      '(ax, m) <~ get_fat_entry disk m c ;
      if ax =? 0xfff then Ok (m, edi) else load_kernel fuel disk m ax edi
  end.

(** boot.asm:49-150: None: the message and the endless loop of No_LoaderBin (96-108). *)
Definition boot_loader (fuel : nat) (disk m name : bytes) : outcome (option bytes) :=
  '(c, m) <~ find_file disk m name ;
  match c with
  | None => Ok None
  | Some c => omap Some (load_loader fuel disk m c 0)
  end.
(** loader.asm:114-313, KernelOffset starts at 100000h (line 24). *)
Definition boot_kernel (fuel : nat) (disk m name : bytes) : outcome (option bytes) :=
  '(c, m) <~ find_file disk m name ;
  match c with
  | None => Ok None
  | Some c => '(m, _) <~ load_kernel fuel disk m c 0x100000 ; Ok (Some m)
  end.
