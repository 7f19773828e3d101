(** Property C65, the instructions: names, ranges, sums and extensions are those of the processor. *)
From Coq Require Import ZArith NArith Bool List Ascii String.
From Verif Require Import Words PyText Asm AsmMeaning.
Import ListNotations.
Open Scope N_scope.

Theorem C65_registers : forall n o, In (n, o) register_names -> names_part n o.
Proof. exact registers_named. Qed.
Print Assumptions C65_registers.
Example C65_registers_ex : In (txt "ah", Reg RAX 1 1) register_names.
Proof. cbn. repeat (try (left; reflexivity); right). Qed.

Theorem C65_addresses : forall a n, (0 < n)%nat ->
  (in_range a n = true <-> forall i, (i < n)%nat -> (0 <= a + Z.of_nat i < 18446744073709551616)%Z).
Proof. exact in_range_exact. Qed.
Print Assumptions C65_addresses.
Example C65_addresses_ex : in_range 18446744073709551608 8 = true /\ in_range 18446744073709551609 8 = false.
Proof. split; reflexivity. Qed.

Theorem C65_sum : forall w a b, a < wbase w -> b < wbase w ->
  compute Add w a b + (if carry Add w a b then wbase w else 0) = a + b /\ compute Add w a b < wbase w.
Proof. exact sum_exact. Qed.
Print Assumptions C65_sum.
Example C65_sum_ex : compute Add 1 255 1 = 0 /\ carry Add 1 255 1 = true.
Proof. split; reflexivity. Qed.

Theorem C65_difference : forall o w a b, o = Sub \/ o = Cmp -> a < wbase w -> b < wbase w ->
  compute o w a b + b = a + (if carry o w a b then wbase w else 0) /\ compute o w a b < wbase w.
Proof. exact difference_exact. Qed.
Print Assumptions C65_difference.
Example C65_difference_ex : compute Sub 1 0 1 = 255 /\ carry Cmp 1 0 1 = true /\ carry Cmp 1 1 1 = false.
Proof. repeat split. Qed.

(** movzx keeps the number, and changes nothing but its destination. *)
Theorem C65_movzx : forall s s' r src w v, width src = Some w -> read_op s w src = Some v -> step (Movzx (Reg r 0 4) src) s = Some s' ->
  (w < 4)%nat /\ le_decode (regs s' r) = le_decode v /\ (forall q, q <> r -> regs s' q = regs s q) /\ mem s' = mem s /\ zf s' = zf s /\ cf s' = cf s.
Proof. exact movzx_exact. Qed.
Print Assumptions C65_movzx.
Example C65_movzx_ex : exists s', step (Movzx (Reg RAX 0 4) (Reg RDI 0 1)) (mkstate (fun _ => [7; 9; 9; 9; 9; 9; 9; 9]) (fun _ => 0) true true) = Some s' /\
  le_decode (regs s' RAX) = 7.
Proof. eexists. split; reflexivity. Qed.
