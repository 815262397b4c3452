(** Model of kernel/include/io/io.hpp: the assembler templates of the six port functions, what the compiler makes of their
    operands, and the assembler that reads the result (AT&T syntax, the kernel being built without -masm=intel). *)
From Coq Require Import NArith String Ascii List Bool.
Import ListNotations.
Local Open Scope string_scope.
Local Open Scope N_scope.

(** ** The compiler: extended asm *)
(** "a" is the accumulator in the size of the operand; "dN" is dx or, for a constant below 256, an immediate. *)
Inductive size := B1 | B2 | B4.
(** GCC: operands of an asm statement as text *)
Inductive place := InDx | Imm (n : N).
(** GCC: operands of an asm statement as text *)
Definition digit (n : N) : string := String (ascii_of_N (48 + n)) "".
(** GCC: operands of an asm statement as text *)
Definition show (n : N) : string :=
  (if n <? 100 then "" else digit (n / 100)) ++ (if n <? 10 then "" else digit (n / 10 mod 10)) ++ digit (n mod 10).
(** GCC: operands of an asm statement as text *)
Definition acc (z : size) : string := match z with B1 => "%al" | B2 => "%ax" | B4 => "%eax" end.
(** GCC: operands of an asm statement as text *)
Definition where_ (p : place) : string := match p with InDx => "%dx" | Imm n => "$" ++ show n end.
(** The text with %[data] or %[v] and %[port] filled in. [tl]: the rest of the text after a prefix. *)
Fixpoint after (pre s : string) : option string :=
  match pre, s with
  | EmptyString, _ => Some s
  | String a pre, String b s => if Ascii.eqb a b then after pre s else None
  | _, _ => None
  end.
(** GCC: operands of an asm statement as text *)
Fixpoint fill (fuel : nat) (z : size) (p : place) (s : string) : string :=
  match fuel with
  | O => s
  | S fuel =>
      match after "%[v]" s, after "%[data]" s, after "%[port]" s, s with
      | Some t, _, _, _ | _, Some t, _, _ => acc z ++ fill fuel z p t
      | _, _, Some t, _ => where_ p ++ fill fuel z p t
      | _, _, _, String c t => String c (fill fuel z p t)
      | _, _, _, EmptyString => EmptyString
      end
  end.

(** ** The assembler *)
Inductive operand := Acc (z : size) | Dx | Num (n : N).
(** assembler: instruction and operands *)
Inductive insn := Inp (z : size) (p : place) | Outp (z : size) (p : place).
(** assembler: instruction and operands *)
Definition is_digit (c : ascii) : bool := let n := N_of_ascii c in (48 <=? n) && (n <=? 57).
(** assembler: instruction and operands *)
Fixpoint number (s : string) (v : N) : option N :=
  match s with
  | EmptyString => Some v
  | String c s => if is_digit c then number s (10 * v + (N_of_ascii c - 48)) else None
  end.
(** one operand: a register name or $number, and nothing after it *)
Definition parse_operand (s : string) : option operand :=
  if String.eqb s "%al" then Some (Acc B1) else if String.eqb s "%ax" then Some (Acc B2) else if String.eqb s "%eax" then Some (Acc B4)
  else if String.eqb s "%dx" then Some Dx
  else match s with
       | String "$" (String c t) => option_map Num (number (String c t) 0)
       | _ => None
       end.
(** assembler: instruction and operands *)
Fixpoint split (sep : ascii) (s : string) : string * option string :=
  match s with
  | EmptyString => ("", None)
  | String c s => if Ascii.eqb c sep then ("", Some s) else let (a, b) := split sep s in (String c a, b)
  end.
(** mnemonic, a space, two operands with a comma between them; source first *)
Definition as_place (o : operand) : option place :=
  match o with Dx => Some InDx | Num n => if n <? 256 then Some (Imm n) else None | Acc _ => None end.
(** model only: equality test *)
Definition size_eqb (a b : size) : bool := match a, b with B1, B1 | B2, B2 | B4, B4 => true | _, _ => false end.
(** assembler: instruction and operands *)
Definition assemble (s : string) : option insn :=
  let (mn, rest) := split " " s in
  match rest with
  | None => None
  | Some rest =>
      let (a, b) := split "," rest in
      match b with
      | None => None
      | Some b =>
          match parse_operand a, parse_operand b with
          | Some x, Some y =>
              let inn z := match as_place x, y with Some p, Acc z' => if size_eqb z z' then Some (Inp z p) else None | _, _ => None end in
              let out z := match x, as_place y with Acc z', Some p => if size_eqb z z' then Some (Outp z p) else None | _, _ => None end in
              if String.eqb mn "inb" then inn B1 else if String.eqb mn "inw" then inn B2 else if String.eqb mn "inl" then inn B4
              else if String.eqb mn "outb" then out B1 else if String.eqb mn "outw" then out B2 else if String.eqb mn "outl" then out B4 else None
          | _, _ => None
          end
      end
  end.

(** ** The templates: size of the operand and text *)
Record template := { t_size : size; t_text : string }.
Definition in_byte : template := {| t_size := B1; t_text := "inb %[v] %[port]" |}.          (* io.hpp:5-12 *)
Definition out_byte : template := {| t_size := B1; t_text := "outb %[data],%[port]" |}.     (* 14-18 *)
Definition in_word : template := {| t_size := B2; t_text := "inb %[v] %[port]" |}.          (* 20-27 *)
Definition out_word : template := {| t_size := B2; t_text := "outw %[data] %[port]" |}.     (* 29-33 *)
Definition in_dword : template := {| t_size := B4; t_text := "inl %[v] %[port]" |}.         (* 35-42 *)
Definition out_dword : template := {| t_size := B4; t_text := "outl %[data] %[port]" |}.    (* 44-48 *)
(** [None]: the assembler refuses the file. [p]: how the compiler passes the port. *)
Definition code (t : template) (p : place) : option insn := assemble (fill (String.length (t_text t)) (t_size t) p (t_text t)).

(** ** Ports *)
(** What the devices do: a read gives a value of the size and may change the device, a write changes it. *)
Record devices (D : Type) := { dev_in : size -> N -> D -> N * D; dev_out : size -> N -> N -> D -> D }.
Arguments dev_in {D}. Arguments dev_out {D}.
(** assembler: instruction and operands *)
Definition port_of (p : place) (dx : N) : N := match p with InDx => dx | Imm n => n end.
(** One instruction: accumulator and devices afterwards. *)
Definition exec {D} (dv : devices D) (i : insn) (a dx : N) (d : D) : N * D :=
  match i with
  | Inp z p => dev_in dv z (port_of p dx) d
  | Outp z p => (a, dev_out dv z (port_of p dx) a d)
  end.
(** The compiler may pass the port as an immediate only if it knows it and it is below 256. *)
Definition passes (port : N) (p : place) : Prop := match p with InDx => True | Imm n => n = port /\ port < 256 end.
(** A call of one of the functions: accumulator = the data to write, or anything for a read. *)
Definition call {D} (dv : devices D) (t : template) (p : place) (port a : N) (d : D) : option (N * D) :=
  option_map (fun i => exec dv i a port d) (code t p).
