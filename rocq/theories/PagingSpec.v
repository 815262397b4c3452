(** The address map the kernel expects. *)
From Coq Require Import NArith Bool.
From Verif Require Import PagingModel.
Local Open Scope N_scope.

(** Offset of an address in one of the two 512 GiB windows at 0 and 0xffff800000000000. *)
Definition window_offset (va : N) : option N :=
  if va <? 0x8000000000 then Some va
  else if (0xffff800000000000 <=? va) && (va <? 0xffff808000000000) then Some (va - 0xffff800000000000)
  else None.
Definition expected_phys (va : N) : option N :=
  match window_offset va with
  | Some o =>
      if o <? 0xa00000 then Some o
      else if o <? 0x1a00000 then Some (o - 0xa00000 + 0xe0000000)
      else None
  | None => None
  end.
