(** The x86-64 instructions that occur in the listings of test/codegen/sample.cpp, in the syntax of llvm-objdump
    with --x86-asm-syntax=intel, and what they do.

    A register is eight bytes, lowest first; memory is a map from addresses to bytes.  Only the zero and carry flags
    are kept.  Jumps go forward.  Instructions with xmm registers occur for std::optional only and are left out. *)
From Coq Require Import ZArith NArith Bool List Ascii String.
From Verif Require Import Words PyText.
Import ListNotations.
Open Scope N_scope.

(** * Instructions *)

Inductive register : Type := RAX | RCX | RDX | RSI | RDI | RSP.

Inductive operand : Type :=
| Reg (r : register) (lo w : nat)          (* bytes lo .. lo + w - 1 of the register *)
| Imm (z : Z)
| Mem (w : nat) (r : register) (off : Z).  (* w bytes at r + off *)

Inductive alu : Type := Add | Sub | Cmp | And | Or | Xor | Test.
Inductive cond : Type := Equal | NotEqual | Below | Above.

Inductive instr : Type :=
| Mov (dst src : operand)
| Movzx (dst src : operand)
| Alu (o : alu) (dst src : operand)
| Set_ (c : cond) (dst : operand)
| Je (label : text)
| Label (label : text)
| Ret.

(** * The machine *)

Record state : Type := mkstate {
  regs : register -> bytes;
  mem : Z -> N;
  zf : bool;
  cf : bool }.

Definition reg_eqb (a b : register) : bool :=
  match a, b with
  | RAX, RAX | RCX, RCX | RDX, RDX | RSI, RSI | RDI, RDI | RSP, RSP => true
  | _, _ => false
  end.
Definition set_reg (s : state) (r : register) (v : bytes) : state :=
  mkstate (fun q => if reg_eqb q r then v else regs s q) (mem s) (zf s) (cf s).
Definition set_mem (s : state) (m : Z -> N) : state := mkstate (regs s) m (zf s) (cf s).
Definition set_flags (s : state) (z c : bool) : state := mkstate (regs s) (mem s) z c.

(** n bytes of memory from address a on; and after writing l there. *)
Definition load (m : Z -> N) (a : Z) (n : nat) : bytes := map (fun i => m (a + Z.of_nat i)%Z) (seq 0 n).
Definition store (m : Z -> N) (a : Z) (l : bytes) : Z -> N := fun x =>
  if ((a <=? x) && (x <? a + Z.of_nat (List.length l)))%Z then nth (Z.to_nat (x - a)) l 0 else m x.

Definition pointer (s : state) (r : register) : Z := Z.of_N (le_decode (regs s r)).

(** Accesses outside the address space fail. *)
Definition in_range (a : Z) (n : nat) : bool := ((0 <=? a) && (a + Z.of_nat n <=? 2 ^ 64))%Z.

Definition width (o : operand) : option nat :=
  match o with
  | Reg _ _ w | Mem w _ _ => Some w
  | Imm _ => None
  end.

(** The w bytes an operand stands for; an immediate is sign-extended. *)
Definition read_op (s : state) (w : nat) (o : operand) : option bytes :=
  match o with
  | Reg r lo w' => if Nat.eqb w w' then Some (slice lo w (regs s r)) else None
  | Imm z => Some (le_encode w (Z.to_N (z mod Z.of_N (wbase w))))
  | Mem w' r off =>
      let a := (pointer s r + off)%Z in
      if Nat.eqb w w' && in_range a w then Some (load (mem s) a w) else None
  end.

(** Writing the lower four bytes of a register clears the upper four. *)
Definition write_op (s : state) (o : operand) (v : bytes) : option state :=
  match o with
  | Reg r lo w =>
      if Nat.eqb w 4 then Some (set_reg s r (v ++ [0; 0; 0; 0]))
      else Some (set_reg s r (splice lo v (regs s r)))
  | Imm _ => None
  | Mem w r off =>
      let a := (pointer s r + off)%Z in
      if in_range a w then Some (set_mem s (store (mem s) a v)) else None
  end.

Definition compute (o : alu) (w : nat) (a b : N) : N :=
  match o with
  | Add => (a + b) mod wbase w
  | Sub | Cmp => (a + (wbase w - b)) mod wbase w
  | And | Test => N.land a b
  | Or => N.lor a b
  | Xor => N.lxor a b
  end.
Definition carry (o : alu) (w : nat) (a b : N) : bool :=
  match o with
  | Add => wbase w <=? a + b
  | Sub | Cmp => a <? b
  | _ => false
  end.
Definition writes_back (o : alu) : bool := match o with Cmp | Test => false | _ => true end.

Definition holds (s : state) (c : cond) : bool :=
  match c with
  | Equal => zf s
  | NotEqual => negb (zf s)
  | Below => cf s
  | Above => negb (cf s) && negb (zf s)
  end.

Definition bind {A B} (x : option A) (f : A -> option B) : option B := match x with Some a => f a | None => None end.

(** One instruction that is not a jump.  None: operands that do not fit or an access that fails. *)
Definition step (i : instr) (s : state) : option state :=
  match i with
  | Mov d src => bind (width d) (fun w => bind (read_op s w src) (write_op s d))
  | Movzx d src =>
      bind (width d) (fun w => bind (width src) (fun w' => bind (read_op s w' src) (fun v =>
        if Nat.ltb w' w then write_op s d (v ++ repeat 0 (w - w')) else None)))
  | Alu o d src =>
      bind (width d) (fun w => bind (read_op s w d) (fun a => bind (read_op s w src) (fun b =>
        let x := compute o w (le_decode a) (le_decode b) in
        let s := set_flags s (x =? 0) (carry o w (le_decode a) (le_decode b)) in
        if writes_back o then write_op s d (le_encode w x) else Some s)))
  | Set_ c d => write_op s d [if holds s c then 1 else 0]
  | Label _ => Some s
  | Je _ | Ret => None
  end.

(** [skip]: a jump is looking for its label.  None: the code fails or has no ret. *)
Fixpoint exec (code : list instr) (skip : option text) (s : state) : option state :=
  match code with
  | [] => None
  | i :: code =>
      match skip with
      | Some l =>
          match i with
          | Label l' => if same_text l l' then exec code None s else exec code skip s
          | _ => exec code skip s
          end
      | None =>
          match i with
          | Ret => Some s
          | Je l => if zf s then exec code (Some l) s else exec code None s
          | _ => bind (step i s) (exec code None)
          end
      end
  end.
Definition run (code : list instr) (s : state) : option state := exec code None s.

(** * Assembly text *)

Definition register_names : list (text * operand) :=
  map (fun '(n, o) => (txt n, o))
  [("rax", Reg RAX 0 8); ("rcx", Reg RCX 0 8); ("rdx", Reg RDX 0 8); ("rsi", Reg RSI 0 8); ("rdi", Reg RDI 0 8);
   ("rsp", Reg RSP 0 8); ("eax", Reg RAX 0 4); ("ecx", Reg RCX 0 4); ("edx", Reg RDX 0 4); ("ax", Reg RAX 0 2);
   ("al", Reg RAX 0 1); ("ah", Reg RAX 1 1); ("cl", Reg RCX 0 1); ("dl", Reg RDX 0 1)]%string.

Definition lookup {A} (k : text) (l : list (text * A)) : option A :=
  option_map snd (find (fun p => same_text k (fst p)) l).

(** 0x... *)
Definition hex_digit (c : ascii) : option N :=
  if is_digit c then Some (digit c)
  else if (97 <=? code c) && (code c <=? 102) then Some (code c - 87) else None.
Fixpoint hex_digits (n : N) (s : text) : option N :=
  match s with
  | [] => Some n
  | c :: s => bind (hex_digit c) (fun d => hex_digits (16 * n + d) s)
  end.
Definition hex (s : text) : option Z :=
  match after_prefix (txt "0x") s with
  | Some (c :: r) => option_map Z.of_N (hex_digits 0 (c :: r))
  | _ => None
  end.
Definition immediate (s : text) : option Z :=
  match after_prefix (txt "-") s with
  | Some r => option_map Z.opp (hex r)
  | None => hex s
  end.

(** [reg], [reg + 0x..] or [reg - 0x..], without the opening bracket. *)
Definition address (w : nat) (s : text) : option operand :=
  match rev s with
  | c :: r =>
      if Ascii.eqb c "]" then
        match split " " (rev r) with
        | [n] => bind (lookup n register_names) (fun o => match o with Reg b O 8%nat => Some (Mem w b 0) | _ => None end)
        | [n; sign; d] =>
            bind (lookup n register_names) (fun o => bind (hex d) (fun z =>
              match o with
              | Reg b O 8%nat =>
                  if same_text sign (txt "+") then Some (Mem w b z)
                  else if same_text sign (txt "-") then Some (Mem w b (- z)) else None
              | _ => None
              end))
        | _ => None
        end
      else None
  | [] => None
  end.

Definition sizes : list (text * nat) :=
  map (fun '(n, w) => (txt n, w))
  [("byte ptr [", 1%nat); ("word ptr [", 2%nat); ("dword ptr [", 4%nat); ("qword ptr [", 8%nat)]%string.

Fixpoint memory_operand (ss : list (text * nat)) (s : text) : option operand :=
  match ss with
  | [] => None
  | (p, w) :: ss => match after_prefix p s with Some r => address w r | None => memory_operand ss s end
  end.

Definition parse_operand (s : text) : option operand :=
  match lookup s register_names with
  | Some o => Some o
  | None =>
      match memory_operand sizes s with
      | Some o => Some o
      | None => option_map Imm (immediate s)
      end
  end.

Definition binaries : list (text * (operand -> operand -> instr)) :=
  map (fun '(n, i) => (txt n, i))
  [("mov", Mov); ("movabs", Mov); ("movzx", Movzx); ("add", Alu Add); ("sub", Alu Sub); ("cmp", Alu Cmp);
   ("and", Alu And); ("or", Alu Or); ("xor", Alu Xor); ("test", Alu Test)]%string.
Definition setters : list (text * cond) :=
  map (fun '(n, c) => (txt n, c)) [("sete", Equal); ("setne", NotEqual); ("setb", Below); ("seta", Above)]%string.

(** The first word and the rest. *)
Fixpoint word (s : text) : text * text :=
  match s with
  | [] => ([], [])
  | c :: r => if Ascii.eqb c " " then ([], r) else let '(a, b) := word r in (c :: a, b)
  end.

Definition parse_instr (s : text) : option instr :=
  let '(mnemonic, rest) := word s in
  match rev mnemonic with
  | c :: l => if Ascii.eqb c ":" then Some (Label (rev l)) else
      if same_text mnemonic (txt "ret") then Some Ret
      else if same_text mnemonic (txt "je") then Some (Je rest)
      else
        match lookup mnemonic setters with
        | Some c => option_map (Set_ c) (parse_operand rest)
        | None =>
            bind (lookup mnemonic binaries) (fun i =>
              match map strip (split "," rest) with
              | [a; b] => bind (parse_operand a) (fun a => bind (parse_operand b) (fun b => Some (i a b)))
              | _ => None
              end)
        end
  | [] => None
  end.

Fixpoint assemble (l : list text) : option (list instr) :=
  match l with
  | [] => Some []
  | s :: l => bind (parse_instr s) (fun i => bind (assemble l) (fun is => Some (i :: is)))
  end.
