(** C01-C03: memmove, memcpy, strcpy, strlen. *)
From stdpp Require Import gmap.
From Verif Require Import Base StringModel StringSpec StringProofs StringExamples.
Local Open Scope N_scope.

(** C01: memmove is correct for every overlap. *)
Theorem C01_memmove : forall (m : gmap N N) (dest src n : N),
  dest <> 0 -> src <> 0 -> mapped m src n -> mapped m dest n ->
  exists m', memmove m dest src n = Ok (m', dest + n) /\ moved m dest src n m'.
Proof. exact memmove_ok. Qed.
Print Assumptions C01_memmove.

(** Both directions of overlap, 17 bytes by distance 3: hypotheses hold and the effect is visible. *)
Example C01_example_up :
  mapped demo_mem 100 17 /\ mapped demo_mem 103 17 /\
  exists m', memmove demo_mem 103 100 17 = Ok (m', 120) /\ m' !! 119 = Some 16 /\ m' !! 102 = Some 3.
Proof.
  split; [apply demo_mapped; lia|]. split; [apply demo_mapped; lia|].
  eexists. split; [vm_compute; reflexivity|]. split; vm_compute; reflexivity.
Qed.
Example C01_example_down :
  mapped demo_mem 100 17 /\ mapped demo_mem 103 17 /\
  exists m', memmove demo_mem 100 103 17 = Ok (m', 117) /\ m' !! 100 = Some 4 /\ m' !! 116 = Some 19.
Proof.
  split; [apply demo_mapped; lia|]. split; [apply demo_mapped; lia|].
  eexists. split; [vm_compute; reflexivity|]. split; vm_compute; reflexivity.
Qed.

(** C02: memcpy for disjoint ranges, and for dest at or below src. *)
Theorem C02_memcpy : forall (m : gmap N N) (dest src n : N),
  dest <> 0 -> src <> 0 -> mapped m src n -> mapped m dest n ->
  (dest <= src \/ disjoint_ranges dest n src n) ->
  exists m', memcpy m dest src n = Ok (m', dest + n) /\ moved m dest src n m'.
Proof. exact memcpy_ok. Qed.
Print Assumptions C02_memcpy.
Example C02_example :
  mapped demo_mem 100 9 /\ mapped demo_mem 110 9 /\ disjoint_ranges 110 9 100 9 /\
  exists m', memcpy demo_mem 110 100 9 = Ok (m', 119) /\ m' !! 118 = Some 9.
Proof.
  split; [apply demo_mapped; lia|]. split; [apply demo_mapped; lia|].
  split; [right; lia|]. eexists. split; vm_compute; reflexivity.
Qed.

(** C02: null pointers and length 0 change nothing. *)
Theorem C02_memcpy_noop : forall (m : gmap N N) (dest src n : N),
  dest = 0 \/ src = 0 \/ n = 0 ->
  memcpy m dest src n = Ok (m, dest) /\ memmove m dest src n = Ok (m, dest).
Proof. exact memcpy_noop. Qed.
Print Assumptions C02_memcpy_noop.
Example C02_noop_example : memcpy demo_mem 0 100 7 = Ok (demo_mem, 0).
Proof. apply memcpy_noop. auto. Qed.

(** C02, limit of the contract: with dest above src and overlapping, memcpy is not a move. *)
Theorem C02_memcpy_overlap_up_refuted :
  exists (m : gmap N N) (dest src n : N),
    dest <> 0 /\ src <> 0 /\ src < dest /\ mapped m src n /\ mapped m dest n /\
    forall m' r, memcpy m dest src n = Ok (m', r) -> ~ moved m dest src n m'.
Proof. exact memcpy_overlap_up_bad. Qed.
Print Assumptions C02_memcpy_overlap_up_refuted.

(** C03: strlen. *)
Theorem C03_strlen : forall (m : gmap N N) (a len : N) (fuel : nat),
  cstring_at m a len -> (N.to_nat len < fuel)%nat -> strlen fuel m a = Ok len.
Proof. exact strlen_ok. Qed.
Print Assumptions C03_strlen.

(** C03: strcpy. *)
Theorem C03_strcpy : forall (m : gmap N N) (dest src len : N) (fuel : nat),
  dest <> 0 -> src <> 0 -> cstring_at m src len -> mapped m dest (len + 1) ->
  (dest <= src \/ disjoint_ranges dest (len + 1) src (len + 1)) ->
  (N.to_nat len < fuel)%nat ->
  exists m', strcpy fuel m dest src = Ok (m', dest) /\ moved m dest src (len + 1) m'.
Proof. exact strcpy_ok. Qed.
Print Assumptions C03_strcpy.

(** The string of 3 characters at 108 is copied to 113..116 and to the overlapping 106. *)
Example C03_example :
  cstring_at demo_mem 108 3 /\ strlen 100 demo_mem 108 = Ok 3 /\
  (exists m', strcpy 100 demo_mem 113 108 = Ok (m', 113) /\ m' !! 116 = Some 0 /\ m' !! 117 = Some 17) /\
  (exists m', strcpy 100 demo_mem 106 108 = Ok (m', 106) /\ m' !! 109 = Some 0).
Proof.
  split; [|split; [vm_compute; reflexivity|split]].
  - split; [vm_compute; reflexivity|]. intros i Hi.
    assert (i = 0 \/ i = 1 \/ i = 2) as [->|[->| ->]] by lia; eexists; (split; [vm_compute; reflexivity|discriminate]).
  - eexists. split; [vm_compute; reflexivity|]. split; vm_compute; reflexivity.
  - eexists. split; vm_compute; reflexivity.
Qed.
