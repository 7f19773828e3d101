(** What declared types and programs over declared variables have to satisfy: nothing about offsets. *)
From Coq Require Import ZArith NArith List Bool.
From Verif Require Import Outcome Words Ints Types OptBytes TypesSpec Lifetime History ByteClass ByteProg ByteProgSpec Alias AliasSpec Layout.
Import ListNotations.
Open Scope nat_scope.

Definition pow2 (a : nat) : Prop := exists k, a = 2 ^ k.

(** A type that no path leads into. *)
Definition leaf (t : ty) : Prop :=
  match t with
  | TComplex _ | TPair _ _ _ _ _ _ | TTuple _ _ _ | TArray _ _ | TOption _ => False
  | _ => True
  end.

(** The option has an unused state left for each of its levels, or uses a flag (see TypesSpec.levels). *)
Definition room (t : ty) : Prop := max_level t = 0%N \/ (1 <= levels t)%N.

Fixpoint declared (d : decl) : Prop :=
  match d with
  | DType t => leaf t /\ wf t /\ pow2 (alignof t)
  | DComplex d => declared d
  | DPair a b => declared a /\ declared b
  | DTuple _ ds => (fix all l := match l with [] => True | d :: l => declared d /\ all l end) ds
  | DArray n d => declared d
  | DMember before d after =>
      (fix all l := match l with [] => True | d :: l => declared d /\ all l end) before /\ declared d /\
      (fix all l := match l with [] => True | d :: l => declared d /\ all l end) after
  | DEnforce d => declared d /\ (0 < max_level (layout d))%N
  | DOption d => declared d /\ room (layout d)
  end.

(** Calls that are well typed in the usual sense. *)
Section Typed.
Context (env : list (nat * ty)).
Definition has_ty (p : place) (t : ty) : Prop := place_ty env p = Some t.
Definition well_typed (r : rop) : Prop :=
  match r with
  | RPlain (ONew x i) => exists t, has_ty (x, []) (TOption t) /\ match i with Some v => valid t v | None => True end
  | RPlain (OObj x v) => exists t, has_ty (x, []) t /\ valid t v
  | RPlain (OCopy x q) | RPlain (OTake x q) => exists t, has_ty (x, []) (TOption t) /\ has_ty q (TOption t)
  | RPlain (OEnd x) => True
  | RPlain (OReset p) | RPlain (OHas p) | RPlain (OGet p) => exists t, has_ty p (TOption t)
  | RPlain (OAssign p v) | RPlain (OEmplace p v) | RPlain (OTryEmplace p v) => exists t, has_ty p (TOption t) /\ valid t v
  | RPlain (OCopyAssign p q) | RPlain (OSwap p q) => exists t, has_ty p (TOption t) /\ has_ty q (TOption t)
  | RPlain (OWrite p v) => exists t, has_ty p t /\ valid t v
  | RNew x q => exists t, has_ty (x, []) (TOption t) /\ has_ty q t
  | RAssign p q | REmplace p q | RTryEmplace p q => exists t, has_ty p (TOption t) /\ has_ty q t
  end.
End Typed.
