(** When the debugger is right about an option, and which bytes it is known to misread. *)
From Coq Require Import NArith List Bool Arith.
From Verif Require Import Outcome Words Types OptBytes Natvis.
Import ListNotations.
Open Scope N_scope.

(** The bits that the other family of NaNs would use for the same level. *)
Definition other_nan (k : nat) (t : ty) (b : bytes) : Prop :=
  match t with
  | TFloat32 q => le_decode b = (if q then 0xFFBF69AF else 0xFFC3EFB5) + N.of_nat k
  | TFloat64 q => le_decode b = (if q then 0xFFF6C79F55B0898F else 0xFFFBF26430BB3557) + N.of_nat k
  | _ => False
  end.

(** The types as a 64-bit MSVC build has them: pointers of 8 bytes, signalling NaNs, its own strings. *)
Fixpoint msvc64 (t : ty) : Prop :=
  match t with
  | TRefWrap p => p = 8%nat
  | TFloat32 q | TFloat64 q => q = false
  | TString p lib => p = 8%nat /\ exists debug, lib = STL debug
  | TPtr32 | TOption _ => False
  | TEnforce u => msvc64 u
  | _ => True
  end.

(** The same for a 32-bit build, where quiet NaNs are used. *)
Fixpoint msvc32 (t : ty) : Prop :=
  match t with
  | TRefWrap p => p = 4%nat
  | TFloat32 q | TFloat64 q => q = true
  | TString p lib => p = 4%nat /\ exists debug, lib = STL debug
  | TPtr64 | TOption _ => False
  | TEnforce u => msvc32 u
  | _ => True
  end.

Fixpoint bare (t : ty) : ty := match t with TEnforce u => bare u | _ => t end.

(** The types that have an entry of their own. *)
Definition listed (k : nat) (t : ty) : Prop :=
  match t with
  | TBool | TRefWrap _ | TFloat32 _ | TFloat64 _ | TString _ _ => (k <= 2)%nat
  | TPtr64 => k = 0%nat
  | _ => max_level (nest k t) = 0
  end.

(** What the 32-bit display gets wrong. *)
Definition amiss32 (k : nat) (t : ty) : Prop :=
  match t with
  | TString _ _ => True
  | TPtr32 | TMemPtr32 => k = 0%nat
  | TFloat64 _ => k = 1%nat
  | _ => False
  end.
