(** What memory::init should print. *)
From stdpp Require Import gmap list.
From Coq Require Import ZArith NArith String Ascii.
From Verif Require Import StringSpec PrintfModel PrintfSpec E820Model.
Local Open Scope N_scope.

Definition ascii_text (s : string) : list N := map N_of_ascii (list_ascii_of_string s).
(** the records printed: at most 16, those before the first type above 4 *)
Fixpoint upto (rs : list e820_entry) : list e820_entry :=
  match rs with r :: rs => if e_type r <=? 4 then r :: upto rs else [] | [] => [] end.
Definition records (m : bytes) : list e820_entry := upto (map (fun i => read_entry m (0x7e00 + 20 * N.of_nat i)) (seq 0 16)).
(** usable memory in bytes *)
Definition ram (rs : list e820_entry) : N := fold_right (fun r t => (if e_type r =? 1 then e_len r else 0) + t) 0 rs.

(** the lines, numbers in decimal, the halves of a 64-bit number separately *)
Definition record_line (r : e820_entry) (t : list N) : Prop :=
  exists a2 a1 l2 l1 ty, numeral 10 false (e_addr r / 2 ^ 32) a2 /\ numeral 10 false (e_addr r mod 2 ^ 32) a1 /\
    numeral 10 false (e_len r / 2 ^ 32) l2 /\ numeral 10 false (e_len r mod 2 ^ 32) l1 /\ numeral 10 false (e_type r) ty /\
    t = ascii_text "Address:"%string ++ a2 ++ [44] ++ a1 ++ [9] ++ ascii_text "Length:"%string ++ l2 ++ [44] ++ l1 ++ [9] ++ ascii_text "Type:"%string ++ ty ++ [10].
(** [i].[q] is the decimal with five digits next to [total] / 2^20 *)
Definition megabytes (total i q : N) : Prop :=
  q < 10 ^ 5 /\ (2 * Z.abs (Z.of_N ((i * 10 ^ 5 + q) * 2 ^ 20) - Z.of_N (total * 10 ^ 5)) <= 2 ^ 20)%Z.
Definition total_line (total : N) (t : list N) : Prop :=
  exists i q di dq, megabytes total i q /\ numeral 10 false i di /\ numeral 10 false q dq /\
    t = ascii_text "TotalMem = "%string ++ di ++ [46] ++ padded 48 5 dq ++ ascii_text " MB"%string ++ [10].
Definition title : list N :=
  ascii_text "Display Physics Address MAP,Type(1:RAM,2:ROM or Reserved,3:ACPI Reclaim Memory,4:ACPI NVS Memory,Others:Undefine)"%string ++ [10].

(** The call leaves a text as [P] says, terminated and without other NULs, in the 1024 bytes of the buffer of printf, wherever they are. *)
Definition call_prints (call : list N * list arg) (P : list N -> Prop) : Prop :=
  forall (m : gmap N N) buf, 0 < buf -> buf + 1024 < 2 ^ 64 -> mapped m buf 1024 ->
  exists t m' e, P t /\ (List.length t < 1024)%nat /\ Forall (fun c => c <> 0) t /\
    vslprintf m buf (buf + 1024) (fst call) (snd call) = FOk (m', e) /\ text_written m buf (t ++ [0]) m'.
Definition is_memory (m : bytes) : Prop := forall a, m a < 256.
