(** The stages of the boot code one after the other: bootloader/boot.asm:49-150, bootloader/loader.asm:68-381.
    [noise i]: what the code and the BIOS calls between the stages do to memory besides (messages, variables, stack). *)
From Coq Require Import NArith.
From Verif Require Import Base E820Model FatModel StageModel.
Local Open Scope outcome_scope.

(** boot.asm:49-150 loads and enters the loader; loader.asm:114-313 loads the kernel; 328-342 stores the memory map; 360-364 asks
    for the video information. [None]: one of the endless loops after a message (No_LoaderBin, No_EosppBin, Fail_Get_Memory). *)
Definition load_all (fuel : nat) (disk loader_name kernel_name : bytes) (b : bios) (info : list N) (noise : nat -> bytes -> bytes)
    (m : bytes) : outcome (option bytes) :=
  r <~ boot_loader fuel disk m loader_name ;
  match r with
  | None => Ok None
  | Some m =>
      r <~ boot_kernel fuel disk (noise 0 m) kernel_name ;
      match r with
      | None => Ok None
      | Some m =>
          r <~ store_memory_map fuel b (noise 1 m) ;
          match r with
          | None => Ok None
          | Some m => Ok (Some (noise 2 (get_svga info m)))
          end
      end
  end.
