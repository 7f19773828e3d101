(** C60: the specialisations of option_traits that the documentation writes. *)
From Coq Require Import ZArith NArith List Bool Lia.
From Verif Require Import Outcome Words Ints Types OptBytes TypesSpec Guide GuideSpec GuideFacts.
Import ListNotations.
Open Scope N_scope.

(** my_type: the rules are kept (so C01-C07 apply), also by options nested to any depth. *)
Theorem C60_my_type : wf my_type /\ forall k, wf (nest k my_type).
Proof. exact (conj my_type_wf (fun k => proj1 (nest_wf my_type my_type_wf eq_refl k))). Qed.
Print Assumptions C60_my_type.

(** The comments in the guide: the option in which l others are nested is empty iff x is -1 and y is l,
    and reset() makes it so. *)
Theorem C60_levels : forall l b, l < 100 ->
  opt_has_value (nest (N.to_nat l) my_type) b = Ok (negb ((my_x b =? -1)%Z && (my_y b =? Z.of_N l)%Z)).
Proof. exact my_has. Qed.
Print Assumptions C60_levels.

Theorem C60_reset : forall td l b, l < 100 -> (8 <= length b)%nat ->
  td = true \/ opt_has_value (nest (N.to_nat l) my_type) b = Ok true ->
  exists b', opt_reset td (nest (N.to_nat l) my_type) b = Ok b' /\ my_x b' = (-1)%Z /\ my_y b' = Z.of_N l.
Proof. exact my_reset. Qed.
Print Assumptions C60_reset.

(** "When my_type::x is equal to -1, the option is considered empty": not for every y. *)
Theorem C60_minus_one_refuted : exists b, length b = 8%nat /\ my_x b = (-1)%Z /\ opt_has_value my_type b = Ok true.
Proof. exact (ex_intro _ [255; 255; 255; 255; 1; 0; 0; 0] (conj eq_refl (conj eq_refl eq_refl))). Qed.
Print Assumptions C60_minus_one_refuted.

(** c{2, 3}; c.get().get().reset(); c.get().reset(); c.reset(). *)
Example C60_ex :
  let c := [2; 0; 0; 0; 3; 0; 0; 0] in
  valid (nest 3 my_type) c /\
  update_at 2 (nest 3 my_type) (opt_reset true my_type) c = Ok [255; 255; 255; 255; 0; 0; 0; 0] /\
  update_at 1 (nest 3 my_type) (opt_reset true (nest 1 my_type)) c = Ok [255; 255; 255; 255; 1; 0; 0; 0] /\
  opt_reset true (nest 2 my_type) c = Ok [255; 255; 255; 255; 2; 0; 0; 0] /\
  sizeof (nest 3 my_type) = 8%nat.
Proof.
  cbv zeta. split; [|repeat split].
  assert (Hb : is_bytes [2; 0; 0; 0; 3; 0; 0; 0]) by (repeat constructor).
  do 3 (cbn [nest valid]; split; [split; [reflexivity|exact Hb]|right; split; [reflexivity|]]).
  cbn [my_type valid]. split; [split; [reflexivity|exact Hb]|]. unfold my_values. vm_compute. intuition congruence.
Qed.

(** my_type_3<T>: the rules are kept for signed T and for unsigned T of at least the width of int, with
    every number a value except -1 and, where x + 1 overflows, the largest. *)
Theorem C60_my_type_3 : forall it, wf_ity it -> isg it = true \/ (4 <= iw it)%nat -> wf (my_type_3 it).
Proof. exact my3_wf. Qed.
Print Assumptions C60_my_type_3.

Theorem C60_my_type_3_overflow_refuted : forall it b, wf_ity it -> isg it = true -> (4 <= iw it)%nat ->
  load it 0 b = imax it -> opt_has_value (my_type_3 it) b = UB.
Proof. exact my3_overflow. Qed.
Print Assumptions C60_my_type_3_overflow_refuted.

Theorem C60_my_type_3_narrow_refuted : forall it b, wf_ity it -> isg it = false -> (iw it < 4)%nat -> length b = iw it ->
  opt_default (my_type_3 it) b = Verify.
Proof. exact my3_narrow. Qed.
Print Assumptions C60_my_type_3_narrow_refuted.
Example C60_my_type_3_ex : wf (my_type_3 int32) /\ load int32 0 [255; 255; 255; 127] = imax int32 /\
  opt_default (my_type_3 int32) [7; 7; 7; 7] = Ok [255; 255; 255; 255].
Proof. split; [apply my3_wf; [exact wf32|left; reflexivity]|split; reflexivity]. Qed.

(** my_type_4 as printed: an empty option can be made only if x happens to be -1 already. *)
Theorem C60_my_type_4_refuted : forall b, length b = 12%nat ->
  opt_default my_type_4 b = if (my_x b =? -1)%Z then my4_set 0 b else Verify.
Proof. exact my4_default. Qed.
Print Assumptions C60_my_type_4_refuted.
(** With the assignment it keeps the rules, but x = -1, y = 10 is not an empty option<my_type_4>. *)
Theorem C60_my_type_4_meant : wf my_type_4_meant /\ exists b, length b = 12%nat /\ my_x b = (-1)%Z /\ my_y b = 10%Z /\
  opt_has_value my_type_4_meant b = Ok true.
Proof.
  exact (conj my_type_4_meant_wf (ex_intro _ [255; 255; 255; 255; 10; 0; 0; 0; 5; 0; 0; 0] (conj eq_refl (conj eq_refl (conj eq_refl eq_refl))))).
Qed.
Print Assumptions C60_my_type_4_meant.

(** float: empty iff equal to zero; -0.f is, too. *)
Theorem C60_float : wf zero_float /\ forall b, length b = 4%nat -> is_bytes b ->
  opt_has_value zero_float b = Ok (negb (le_decode b mod 2 ^ 31 =? 0)).
Proof. exact (conj zero_float_wf zero_float_exact). Qed.
Print Assumptions C60_float.
Example C60_float_ex : opt_has_value zero_float [0; 0; 0; 128] = Ok false /\ opt_has_value zero_float [0; 0; 128; 63] = Ok true.
Proof. split; reflexivity. Qed.

(** double with max_level 0: a flag follows. *)
Theorem C60_disabled : wf plain_double /\ sizeof (TOption plain_double) = 16%nat /\
  forall b, opt_has_value plain_double b = read_bool 8 b.
Proof. exact plain_double_ok. Qed.
Print Assumptions C60_disabled.

(** some_struct of the examples; the class of the as_option example. *)
Theorem C60_some_struct : wf some_struct /\ wf hundred.
Proof. exact (conj some_struct_wf hundred_wf). Qed.
Print Assumptions C60_some_struct.
Theorem C60_hundred_refuted : forall b, (load int32 0 b < -2147483548)%Z -> opt_has_value hundred b = UB.
Proof. exact hundred_overflow. Qed.
Print Assumptions C60_hundred_refuted.
Example C60_hundred_ex : load int32 0 [0; 0; 0; 128] = (-2147483648)%Z /\
  opt_has_value hundred [100; 0; 0; 0] = Ok false /\ opt_has_value hundred [1; 0; 0; 0] = Ok true.
Proof. repeat split. Qed.
