(** C64: options in constant expressions.  None is "not a constant expression". *)
From Coq Require Import ZArith NArith List Bool Arith Lia.
From Verif Require Import Ints Types FindingsFacts History ConstEval ConstEvalSpec ConstEvalFacts.
Import ListNotations.
Open Scope Z_scope.

(** C++20, T without unused states: every program is evaluated, with the results of mathematical optionals. *)
Theorem C64_cxx20 : forall V vm (T : literal V) p n, vm <> Ignored -> sane T -> l_traits T = None ->
  option_map snd (run true vm T p (repeat None n)) = means20 (l_left T) p n.
Proof. exact (@flag_20). Qed.
Print Assumptions C64_cxx20.

(** C++17, trivially destructible T without unused states: exactly the programs that create values only in
    storage that has held one. *)
Theorem C64_cxx17 : forall V vm (T : literal V) p n, vm <> Ignored -> sane T -> l_traits T = None -> l_td T = true ->
  option_map snd (run false vm T p (repeat None n)) =
  means17 (l_left T) (l_tcc T) (l_tca T) (l_tmc T) (l_tma T) (l_scalar T) (l_swap T) p n.
Proof. exact (@flag_17). Qed.
Print Assumptions C64_cxx17.

(** C++17, any other destructor: no option at all. *)
Theorem C64_cxx17_destructor : forall V vm (T : literal V) s p n, l_td T = false ->
  run false vm T (s :: p) (repeat None n) = None.
Proof. exact (@cxx17_stuck). Qed.
Print Assumptions C64_cxx17_destructor.

(** T with unused states and traits that can be evaluated and keep the rules: exactly the programs in which an empty option is
    made only by a trivial copy, or by traits that create the object, and no value that means "empty" is given. *)
Theorem C64_traits : forall V cxx20 vm (T : literal V), sane T -> forall t, l_traits T = Some t ->
  cxx20 || l_td T = true -> vm <> Ignored -> usable t = true -> vacant t (vacancy t) = true ->
  (forall v, vacant t v = false -> vacant t (l_left T v) = false) ->
  forall p n,
    option_map snd (run cxx20 vm T p (repeat None n)) =
    means_traits (l_left T) cxx20 (l_tcc T) (l_tca T) (l_tmc T) (l_tma T) (l_td T) (l_scalar T) (l_swap T)
      (builds t) (vacant t) p n.
Proof. exact (@traits_run). Qed.
Print Assumptions C64_traits.

(** No program that declares an empty option without a flag, with traits that assign. *)
Theorem C64_no_default : forall V cxx20 vm (T : literal V) t x p l, l_traits T = Some t -> builds t = false ->
  In (New x None) p -> run cxx20 vm T p l = None.
Proof. exact (@no_default). Qed.
Print Assumptions C64_no_default.

(** Which of the library's traits can be evaluated. *)
Theorem C64_types : forall t, evaluable t = true <-> exists u, keeps_level_in t u /\ compared u.
Proof. exact evaluable_iff. Qed.
Print Assumptions C64_types.

(** The others, where the verification is evaluated: not one program with an option in it, in any standard. *)
Theorem C64_opaque : forall V cxx20 (T : literal V) t tr s p n, describes T t -> l_traits T = Some tr ->
  evaluable t = false -> run cxx20 Checked T (s :: p) (repeat None n) = None.
Proof. exact (@described_stuck). Qed.
Print Assumptions C64_opaque.
(** ... and elsewhere none that asks whether there is a value or makes an empty option. *)
Theorem C64_opaque_asks : forall V cxx20 vm (T : literal V) t tr s p l, describes T t -> l_traits T = Some tr ->
  evaluable t = false -> asks s = true -> In s p -> run cxx20 vm T p l = None.
Proof. exact (@described_asks). Qed.
Print Assumptions C64_opaque_asks.

(** Turning the verification off never takes a constant expression away or changes its results. *)
Theorem C64_verification : forall V cxx20 (T : literal V) p l r,
  (run cxx20 Checked T p l = Some r -> run cxx20 Assumed T p l = Some r) /\
  (run cxx20 Assumed T p l = Some r -> run cxx20 Ignored T p l = Some r).
Proof. exact (@verification). Qed.
Print Assumptions C64_verification.

(** * Examples *)
(** int: a scalar; std::swap is constexpr since C++20. *)
Definition int_ : literal Z := mkliteral true true true true true true false (fun z => z) None.
(** A class with a move that zeroes and a destructor. *)
Definition zeroing : literal Z := mkliteral false false false false false false false (fun _ => 0) None.
(** opt::sentinel<int, -1> *)
Definition sent : traits Z := mktraits true false (Z.eqb (-1)) (-1).
Definition sentinel_ : literal Z := mkliteral true true true true true false false (fun z => z) (Some sent).
Definition bool_ : literal bool := mkliteral true true true true true true false (fun z => z) (Some (mktraits false false (fun _ => false) false)).

Example C64_int_sane : sane int_ /\ sane zeroing /\ sane sentinel_ /\ sane bool_.
Proof. repeat split; cbn; auto; discriminate. Qed.
Example C64_describes : describes int_ (TOpaque 4 4) /\ describes sentinel_ (TSentinel i32 [-1]) /\ describes bool_ TBool.
Proof. repeat split; vm_compute; discriminate. Qed.
Example C64_sentinel_hyps : l_traits sentinel_ = Some sent /\ usable sent = true /\ vacant sent (vacancy sent) = true /\
  l_td sentinel_ = true /\ builds sent = false.
Proof. repeat split. Qed.

(** The warmth of storage: reset keeps it, a trivial copy of a cold option does not. *)
Example C64_warm :
  let p := [New 0 (Some 1); Reset 0; Set_ 0 2; Get 0] in
  let q := [New 0 (Some 1); New 1 None; CopyAssign 0 1; Set_ 0 2; Get 0] in
  option_map snd (run false Checked int_ p [None; None]) = Some [SawValue 2] /\
  run false Checked int_ q [None; None] = None /\
  option_map snd (run true Checked int_ q [None; None]) = Some [SawValue 2].
Proof. repeat split. Qed.
Example C64_moves :
  let p := [New 0 (Some 7); NewMove 1 0; Get 0; Get 1; NewTake 2 1; Has 1; Get 2; Swap 1 2; Get 1; Has 2; Destroy 1; Destroy 2; Destroy 0] in
  option_map snd (run true Checked zeroing p [None; None; None]) =
    Some [SawValue 0; SawValue 7; SawHas false; SawValue 7; SawValue 7; SawHas false] /\
  run false Checked zeroing p [None; None; None] = None.
Proof. repeat split. Qed.
Example C64_sentinel_prog :
  let p := [New 0 (Some 5); Reset 0; Has 0; NewCopy 1 0; Set_ 1 6; Get 1; Swap 0 1; Get 0; Has 1] in
  option_map snd (run false Checked sentinel_ p [None; None]) = Some [SawHas false; SawValue 6; SawValue 6; SawHas false] /\
  run true Checked sentinel_ [New 0 (Some (-1))] [None] = None /\
  run true Checked sentinel_ [New 0 None] [None] = None.
Proof. repeat split. Qed.
(** A class with a destructor and traits that create the object, and the same with traits that assign. *)
Definition with_traits (b : bool) : literal Z :=
  mkliteral false false false false false false false (fun z => z) (Some (mktraits true b (Z.eqb (-1)) (-1))).
Example C64_destructor_traits :
  let p := [New 0 (Some 4); Set_ 0 5; Get 0; Destroy 0] in
  let q := [New 0 (Some 4); Reset 0; Has 0; New 1 None; Swap 0 1; Emplace 1 3; Get 1] in
  sane (with_traits true) /\
  option_map snd (run true Checked (with_traits false) p [None; None]) = Some [SawValue 5] /\
  run true Checked (with_traits false) q [None; None] = None /\
  option_map snd (run true Checked (with_traits true) q [None; None]) = Some [SawHas false; SawValue 3].
Proof. repeat split; discriminate. Qed.
(** What the modes differ in. *)
Example C64_modes :
  (option_map snd (run true Assumed bool_ [New 0 (Some true); Get 0] [None]) = Some [SawValue true] /\
   run true Checked bool_ [New 0 (Some true); Get 0] [None] = None /\
   run true Assumed bool_ [New 0 (Some true); Has 0] [None] = None) /\
  (option_map snd (run true Ignored int_ [New 0 (Some 1); Reset 0; Get 0] [None]) = Some [SawValue 1] /\
   run true Assumed int_ [New 0 (Some 1); Reset 0; Get 0] [None] = None).
Proof. repeat split. Qed.
Example C64_types_ex :
  evaluable (TPair 0 TBool 4 (TEnumSent i32 3) 8 4) = false /\
  evaluable (TArray 4 (TSentinel i32 [-1])) = true /\
  evaluable (TOption (TOpaque 4 4)) = false /\ evaluable (TFloat64 true) = false /\ evaluable TPtr64 = false.
Proof. repeat split. Qed.

(** "Slightly extended constexpr support" (docs/feature_list.md 78-80): the text makes sense, and the standard
    library's optional evaluates it, but the option does not. *)
Theorem C64_bool_refuted : exists (T : literal bool) t p n, sane T /\ describes T t /\ t = TBool /\
  means20 (l_left T) p n = Some [SawValue true] /\ run true Checked T p (repeat None n) = None.
Proof.
  exists bool_, TBool, [New 0 (Some true); Get 0], 1%nat.
  destruct C64_int_sane as (_ & _ & _ & S). repeat split; try apply S; vm_compute; discriminate.
Qed.
Print Assumptions C64_bool_refuted.
Theorem C64_default_refuted : exists (T : literal Z) t p n, sane T /\ describes T t /\ t = TSentinel i32 [-1] /\
  means20 (l_left T) p n = Some [SawHas false] /\ run true Checked T p (repeat None n) = None.
Proof.
  exists sentinel_, (TSentinel i32 [-1]), [New 0 None; Has 0], 1%nat.
  destruct C64_int_sane as (_ & _ & S & _). repeat split; try apply S; vm_compute; discriminate.
Qed.
Print Assumptions C64_default_refuted.

(** An option of an option, whose own levels are kept in the inner flag or value. *)
Theorem C64_nested : forall V cxx20 (T : literal V) u tr s p n, describes T (TOption u) -> l_traits T = Some tr ->
  run cxx20 Checked T (s :: p) (repeat None n) = None.
Proof. intros V cxx20 T u tr s p n D E. exact (described_stuck cxx20 T (TOption u) tr s p n D E eq_refl). Qed.
Print Assumptions C64_nested.
Example C64_nested_ex : max_level (TOption (TOpaque 4 4)) <> 0%N.
Proof. vm_compute. discriminate. Qed.

(** test/constexpr.test.cpp 26-224, for int; [only20]: the test is under OPTION_IS_CXX20.  An option<long long>
    assigned from option<int> is SetConv; the declared variables are numbered. *)
Definition passes (p : list (stmt Z)) : Prop :=
  run false Checked int_ p [None; None] <> None /\ run true Checked int_ p [None; None] <> None.
Definition only20 (p : list (stmt Z)) : Prop :=
  run false Checked int_ p [None; None] = None /\ run true Checked int_ p [None; None] <> None.
Example constexpr_constructors :
  passes [New 0 None] /\ passes [New 0 None; NewCopy 1 0] /\ passes [New 0 (Some 1); NewCopy 1 0] /\
  passes [New 0 (Some 1)] /\ passes [NewConv 1 None] /\ only20 [NewConv 1 (Some 1)].
Proof. repeat split; discriminate. Qed.
Example constexpr_assign :
  passes [New 0 None; Reset 0] /\ passes [New 0 (Some 1); Reset 0] /\
  passes [New 0 None; New 1 None; CopyAssign 0 1] /\ passes [New 0 (Some 1); New 1 None; CopyAssign 0 1] /\
  passes [New 0 None; New 1 (Some 1); CopyAssign 0 1] /\ passes [New 0 (Some 1); New 1 (Some 1); CopyAssign 0 1] /\
  passes [New 0 None; New 1 None; MoveAssign 0 1] /\ passes [New 0 (Some 1); New 1 None; MoveAssign 0 1] /\
  passes [New 0 None; New 1 (Some 1); MoveAssign 0 1] /\ passes [New 0 (Some 1); New 1 (Some 1); MoveAssign 0 1] /\
  only20 [New 0 None; Set_ 0 1] /\ passes [New 0 (Some 1); Set_ 0 1] /\
  passes [New 0 None; SetConv 0 None] /\ only20 [New 0 None; SetConv 0 (Some 1)] /\
  passes [New 0 (Some 1); SetConv 0 None] /\ passes [New 0 (Some 1); SetConv 0 (Some 1)].
Proof. repeat split; discriminate. Qed.
Example constexpr_members :
  passes [New 0 (Some 1); Get 0] /\ passes [New 0 None; Has 0] /\ passes [New 0 (Some 1); Has 0] /\
  passes [New 0 None; Reset 0] /\ passes [New 0 (Some 1); Reset 0] /\
  only20 [New 0 None; Emplace 0 1] /\ passes [New 0 (Some 1); Emplace 0 1] /\
  passes [New 0 None; NewMap 1 0 (Z.add 1)] /\ passes [New 0 (Some 1); NewMap 1 0 (Z.add 1)].
Proof. repeat split; discriminate. Qed.
