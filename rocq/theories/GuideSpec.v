(** Which objects of these classes are values, in numbers; the classes as types of the universe. *)
From Coq Require Import ZArith NArith List Bool.
From Verif Require Import Outcome Words Ints Types Guide.
Import ListNotations.
Open Scope N_scope.

(** x is not -1, or y is not one of the levels. *)
Definition my_values (b : bytes) : Prop := ~ (my_x b = (-1)%Z /\ (0 <= my_y b < 100)%Z).
Definition my_type : ty := TCustom 8 4 100 my_get my_set my_values.

(** Any T but the -1 that marks emptiness, and, if x + 1 is computed with overflow, the largest number. *)
Definition my3_values (it : ity) (b : bytes) : Prop :=
  load it 0 b <> wrap it (-1) /\ (isg it = true -> (4 <= iw it)%nat -> load it 0 b <> imax it).
Definition my_type_3 (it : ity) : ty := TCustom (iw it) (iw it) 1 (my3_get it) (my3_set it) (my3_values it).

Definition my4_values (b : bytes) : Prop := ~ (my_x b = (-1)%Z /\ (0 <= my_y b < 10000)%Z).
Definition my_type_4 : ty := TCustom 12 4 10000 my_get my4_set my4_values.
(** The same with the assignment that is evidently meant. *)
Definition my_type_4_meant : ty := TCustom 12 4 10000 my_get my_set my4_values.

(** double, disabled. *)
Definition plain_double : ty := TCustom 8 8 0 (fun _ => UB) (fun _ _ => UB) (fun _ => True).

Definition zero_float : ty := TCustom 4 4 1 float_get float_set (fun b => le_decode b <> 0 /\ le_decode b <> 0x80000000).
Definition some_struct : ty := TCustom 4 4 1 some_get some_set (fun b => load int32 0 b <> (-1)%Z).

Definition hundred_values (b : bytes) : Prop := (load int32 0 b <> 100 /\ -2147483548 <= load int32 0 b)%Z.
Definition hundred : ty := TCustom 4 4 1 hundred_get hundred_set hundred_values.
