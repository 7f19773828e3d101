(** What the instructions of Asm mean, in numbers. *)
From Coq Require Import ZArith NArith Bool List Ascii String Lia.
From Verif Require Import Words WordsFacts PyText Asm.
Import ListNotations.
Open Scope N_scope.

(** The names of the parts of a register. *)
Definition body (r : register) : string :=
  match r with RAX => "ax" | RCX => "cx" | RDX => "dx" | RSI => "si" | RDI => "di" | RSP => "sp" end.
Definition letter (r : register) : option string :=
  match r with RAX => Some "a"%string | RCX => Some "c"%string | RDX => Some "d"%string | _ => None end.
Definition names_part (n : text) (o : operand) : Prop :=
  exists r, (n = txt ("r" ++ body r) /\ o = Reg r 0 8) \/ (n = txt ("e" ++ body r) /\ o = Reg r 0 4) \/
    (n = txt (body r) /\ o = Reg r 0 2) \/
    exists l, letter r = Some l /\ ((n = txt (l ++ "l") /\ o = Reg r 0 1) \/ (n = txt (l ++ "h") /\ o = Reg r 1 1)).

Lemma registers_named n o : In (n, o) register_names -> names_part n o.
Proof.
  intros I. cbn [register_names map In] in I.
  repeat (destruct I as [I|I]; [injection I as <- <-|]); try contradiction; unfold names_part;
  match goal with |- exists r, _ \/ _ = Reg ?q _ _ /\ _ \/ _ => exists q | |- context [Reg ?q _ _ = Reg _ _ _] => exists q end;
  first [left; split; reflexivity | right; left; split; reflexivity | right; right; left; split; reflexivity
        | right; right; right; eexists; split; [reflexivity|left; split; reflexivity]
        | right; right; right; eexists; split; [reflexivity|right; split; reflexivity]].
Qed.

Lemma in_range_exact a n : (0 < n)%nat -> (in_range a n = true <-> forall i, (i < n)%nat -> (0 <= a + Z.of_nat i < 18446744073709551616)%Z).
Proof.
  intros P. unfold in_range. change (2 ^ 64)%Z with 18446744073709551616%Z. rewrite andb_true_iff, !Z.leb_le. split.
  - intros [A B] i I. lia.
  - intros H. assert (A := H 0%nat P). assert (B := H (n - 1)%nat ltac:(lia)). lia.
Qed.

Lemma sum_exact w a b : a < wbase w -> b < wbase w ->
  compute Add w a b + (if carry Add w a b then wbase w else 0) = a + b /\ compute Add w a b < wbase w.
Proof.
  intros A B. unfold compute, carry. pose proof (wbase_pos w). split; [|apply N.mod_lt; lia].
  destruct (wbase w <=? a + b) eqn:E; [apply N.leb_le in E|apply N.leb_gt in E].
  - replace (a + b) with ((a + b - wbase w) + 1 * wbase w) at 1 by lia. rewrite N.mod_add, N.mod_small by lia. lia.
  - rewrite N.mod_small by lia. lia.
Qed.
Lemma difference_exact o w a b : o = Sub \/ o = Cmp -> a < wbase w -> b < wbase w ->
  compute o w a b + b = a + (if carry o w a b then wbase w else 0) /\ compute o w a b < wbase w.
Proof.
  intros O A B. pose proof (wbase_pos w).
  assert (X : (a + (wbase w - b)) mod wbase w + b = a + (if a <? b then wbase w else 0) /\ (a + (wbase w - b)) mod wbase w < wbase w).
  { split; [|apply N.mod_lt; lia]. destruct (a <? b) eqn:E; [apply N.ltb_lt in E|apply N.ltb_ge in E].
    - rewrite N.mod_small by lia. lia.
    - replace (a + (wbase w - b)) with ((a - b) + 1 * wbase w) by lia. rewrite N.mod_add, N.mod_small by lia. lia. }
  destruct O as [-> | ->]; exact X.
Qed.

Lemma decode_zeros v n : le_decode (v ++ repeat 0 n) = le_decode v.
Proof.
  induction v as [|x v IH]; cbn [app le_decode]; [|now rewrite IH]. induction n as [|n IH]; [reflexivity|]. cbn [repeat le_decode]. now rewrite IH.
Qed.
Lemma movzx_exact s s' r src w v : width src = Some w -> read_op s w src = Some v -> step (Movzx (Reg r 0 4) src) s = Some s' ->
  (w < 4)%nat /\ le_decode (regs s' r) = le_decode v /\ (forall q, q <> r -> regs s' q = regs s q) /\ mem s' = mem s /\ zf s' = zf s /\ cf s' = cf s.
Proof.
  intros W R S. unfold step, bind in S. cbn [width] in S. rewrite W, R in S. destruct (Nat.ltb w 4) eqn:L; [|discriminate].
  cbn [write_op Nat.eqb] in S. injection S as <-. cbn [set_reg regs mem zf cf].
  split; [now apply Nat.ltb_lt|]. split; [|split; [|repeat split]].
  - destruct r; cbn [reg_eqb]; rewrite <- app_assoc; change [0; 0; 0; 0] with (repeat 0 4); rewrite <- repeat_app; apply decode_zeros.
  - intros q N. destruct (reg_eqb q r) eqn:E; [|reflexivity]. destruct N. destruct q, r; try discriminate; reflexivity.
Qed.
