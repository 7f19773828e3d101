(** C61: which form of initialisation makes the contained value; C62: the wrapper classes. *)
From Coq Require Import ZArith NArith List Bool Lia.
From Verif Require Import Outcome Words Ints IntsFacts Types OptBytes Init InitSpec InitFacts.
Import ListNotations.
Open Scope Z_scope.

Definition i32 : ity := {| iw := 4; isg := true |}.
Definition u32 : ity := {| iw := 4; isg := false |}.
Definition i64 : ity := {| iw := 8; isg := true |}.
Definition char8 : ity := {| iw := 1; isg := true |}.

(** Constructor, in_place, make_option; emplace, try_emplace; value_or_construct; assignment to an empty
    option: whichever of them compile make the same value. *)
Theorem C61_same_value : forall cxx20 t args v w,
  let makes v :=
    by_constructor cxx20 t args = Val v \/ by_emplace cxx20 t args = Val v \/ by_value_or_construct cxx20 t args = Val v \/
    (exists a, args = [a] /\ by_assignment cxx20 t a = Val v) in
  makes v -> makes w -> v = w.
Proof. exact sites_agree. Qed.
Print Assumptions C61_same_value.
Example C61_same_value_ex :
  let t := UAgg [UInt i32; UStr char8; UInt i64] in let args := [AInt i32 7; ALit [65; 66]] in
  by_constructor true t args = Val (VSeq [VInt 7; VSeq [VInt 65; VInt 66]; VInt 0]) /\
  by_emplace true t args = Val (VSeq [VInt 7; VSeq [VInt 65; VInt 66]; VInt 0]) /\
  by_constructor false t args = Val (VSeq [VInt 7; VSeq [VInt 65; VInt 66]; VInt 0]).
Proof. repeat split. Qed.

(** x = a is allowed for an empty option<T> x exactly where option<T> x = a is. *)
Theorem C61_assignment : forall cxx20 t a, by_assignment cxx20 t a <> Bad <-> implicitly cxx20 t a = true.
Proof. exact assignment_implicit. Qed.
Print Assumptions C61_assignment.
Example C61_assignment_ex : implicitly true (UStr char8) (ALit [65]) = true /\ by_assignment true (UStr char8) (ALit [65]) = Val (VSeq [VInt 65]) /\
  implicitly false (UVec i32) (AInt i32 3) = false /\ by_constructor false (UVec i32) [AInt i32 3] = Val (VSeq [VInt 0; VInt 0; VInt 0]).
Proof. repeat split. Qed.

(** docs/feature_list.md: in C++17 list-initialisation for aggregates and direct-initialisation for the rest. *)
Theorem C61_cxx17 : forall t args v,
  (by_constructor false t args = Val v <-> feature_list_says false t args = Val v) /\
  (by_emplace false t args = Val v <-> feature_list_says false t args = Val v).
Proof. exact feature17. Qed.
Print Assumptions C61_cxx17.
Theorem C61_cxx17_errors : forall t args, is_wrapper t = false -> by_constructor false t args <> Hard.
Proof. exact hard17. Qed.
Print Assumptions C61_cxx17_errors.

(** In C++20 direct-initialisation, by emplace exactly, by the constructor if it compiles. *)
Theorem C61_cxx20_partial : forall t args v,
  (by_constructor true t args = Val v -> feature_list_says true t args = Val v) /\
  (by_emplace true t args = Val v <-> feature_list_says true t args = Val v).
Proof. exact feature20. Qed.
Print Assumptions C61_cxx20_partial.
(** It does not compile, although its constraint holds, exactly for an aggregate that parentheses would
    initialise and braces do not. *)
Theorem C61_cxx20_errors : forall t args, is_wrapper t = false ->
  (by_constructor true t args = Hard <-> aggregate t = true /\ paren true t args <> Bad /\ brace true t args = Bad).
Proof. exact hard20. Qed.
Print Assumptions C61_cxx20_errors.
Theorem C61_cxx20_refuted : exists t args v,
  std_optional t args = Val v /\ feature_list_says true t args = Val v /\ by_emplace true t args = Val v /\
  by_constructor true t args = Hard /\ by_constructor false t args = Bad.
Proof.
  exact (ex_intro _ (UAgg [UInt i32; UInt i32]) (ex_intro _ [AInt i64 1; AInt i32 2] (ex_intro _ (VSeq [VInt 1; VInt 2])
    (conj eq_refl (conj eq_refl (conj eq_refl (conj eq_refl eq_refl))))))).
Qed.
Print Assumptions C61_cxx20_refuted.

(** std::array can be given its elements in C++17; in C++20 the constructor is not there and emplace is an error. *)
Theorem C61_array : forall it n args, Forall (plain it) args -> args <> [] -> (length args <= n)%nat ->
  let v := VSeq [VSeq (map (number it) args ++ repeat (VInt 0) (n - length args))] in
  by_constructor false (std_array it n) args = Val v /\ by_emplace false (std_array it n) args = Val v /\
  by_constructor true (std_array it n) args = Bad /\ by_emplace true (std_array it n) args = Hard /\
  by_value_or_construct true (std_array it n) args = Val v.
Proof. exact array_forms. Qed.
Print Assumptions C61_array.
Example C61_array_ex : Forall (plain i32) [AInt i32 1; AInt char8 2; AInt i32 3] /\
  by_constructor false (std_array i32 4) [AInt i32 1; AInt char8 2; AInt i32 3] = Val (VSeq [VSeq [VInt 1; VInt 2; VInt 3; VInt 0]]).
Proof. split; [|reflexivity]. repeat constructor; eexists; eexists; split; reflexivity. Qed.

(** docs/reference.md speaks of direct-list-initialization for every T.  This is so for aggregates only. *)
Theorem C61_reference_partial : forall cxx20 t args v, aggregate t = true ->
  by_constructor cxx20 t args = Val v -> reference_says cxx20 t args = Val v.
Proof. exact constructor_braces. Qed.
Print Assumptions C61_reference_partial.
Theorem C61_reference_refuted : exists t args v w, forall cxx20,
  by_constructor cxx20 t args = Val v /\ reference_says cxx20 t args = Val w /\ v <> w.
Proof. exact vector_parentheses. Qed.
Print Assumptions C61_reference_refuted.

(** C62: a wrapper made from a T holds that T, one made from nothing is value-initialised. *)
Theorem C62_copies : forall cxx20 t v, by_constructor cxx20 (UWrap t) [AObj v] = Val v /\ by_emplace cxx20 (UWrap t) [AObj v] = Val v.
Proof. exact wrapper_copies. Qed.
Print Assumptions C62_copies.
(** Exactly what the constructors of a wrapper do with other arguments. *)
Theorem C62_constructor : forall cxx20 t args, args <> [] -> (forall v, args <> [AObj v]) ->
  by_constructor cxx20 (UWrap t) args = if initializable cxx20 t args then must (brace cxx20 t args)
    else match args with [a] => conv t a | _ => Bad end.
Proof. exact wrapper_constructor. Qed.
Print Assumptions C62_constructor.
(** Around an aggregate it takes what the aggregate takes. *)
Theorem C62_aggregate : forall cxx20 ms args, by_constructor cxx20 (UWrap (UAgg ms)) args = by_constructor cxx20 (UAgg ms) args.
Proof. exact wrapper_aggregate. Qed.
Print Assumptions C62_aggregate.
Example C62_aggregate_ex : by_constructor true (UWrap (UAgg [UInt i32; UInt i64])) [AInt i32 4; AInt i32 5] = Val (VSeq [VInt 4; VInt 5]).
Proof. reflexivity. Qed.

(** Around an integer it takes integers that need no narrowing; the others pass the constraints, and even
    convert implicitly, but are errors inside the constructor. *)
Theorem C62_integer : forall cxx20 d s z,
  by_constructor cxx20 (UWrap (UInt d)) [AInt s z] = (if fits s d then Val (VInt (wrap d z)) else Hard) /\
  by_constructor cxx20 (UInt d) [AInt s z] = Val (VInt (wrap d z)) /\
  implicitly cxx20 (UWrap (UInt d)) (AInt s z) = true.
Proof. exact wrapper_int. Qed.
Print Assumptions C62_integer.
Theorem C62_integer_value : forall s d z, wf_width (iw d) -> fits s d = true -> in_ity s z -> wrap d z = z.
Proof. exact fits_wrap. Qed.
Print Assumptions C62_integer_value.
Theorem C62_narrowing_refuted : exists d s z v, in_ity s z /\ in_ity d z /\ forall cxx20,
  by_constructor cxx20 (UInt d) [AInt s z] = Val v /\ implicitly cxx20 (UWrap (UInt d)) (AInt s z) = true /\
  by_constructor cxx20 (UWrap (UInt d)) [AInt s z] = Hard.
Proof. exact wrapper_narrowing. Qed.
Print Assumptions C62_narrowing_refuted.

(** Around a container, braces make something else than the container's own constructor. *)
Theorem C62_container_refuted : exists t args v w, forall cxx20,
  by_constructor cxx20 t args = Val v /\ by_constructor cxx20 (UWrap t) args = Val w /\ v <> w.
Proof. exact wrapper_vector. Qed.
Print Assumptions C62_container_refuted.
(** A literal neither converts nor can be assigned: operator=(U&&) of the base class (3917) is hidden. *)
Theorem C62_literal_refuted : forall cxx20 it s,
  by_constructor cxx20 (UWrap (UStr it)) [ALit s] = Val (VSeq (map VInt s)) /\
  implicitly cxx20 (UWrap (UStr it)) (ALit s) = false /\ by_assignment cxx20 (UWrap (UStr it)) (ALit s) = Bad /\
  implicitly cxx20 (UStr it) (ALit s) = true /\ by_assignment cxx20 (UStr it) (ALit s) = Val (VSeq (map VInt s)).
Proof. exact wrapper_literal. Qed.
Print Assumptions C62_literal_refuted.

(** docs/reference.md 2349: "if func1() returns -1, it returns an empty option".  It does not return: construction
    from the first value given to sentinel fails the verification. *)
Theorem C62_returned_sentinel_refuted : forall it v vals b, wf_width (iw it) -> in_ity it v -> length b = iw it ->
  opt_construct (TSentinel it (v :: vals)) (int_encode it v) b = Verify.
Proof. exact returned_sentinel. Qed.
Print Assumptions C62_returned_sentinel_refuted.
Example C62_returned_sentinel_ex : in_ity i32 (-1) /\
  opt_construct (TSentinel i32 [-1]) (int_encode i32 (-1)) [0; 0; 0; 0]%N = Verify /\
  opt_construct (TSentinel i32 [-1]) (int_encode i32 5) [0; 0; 0; 0]%N = Ok [5; 0; 0; 0]%N.
Proof. split; [vm_compute; split; discriminate|split; reflexivity]. Qed.
