(** The project's own tests of the members of option<T>, run in the model.

    test/option.test.cpp runs one body for about twenty types T and five sample values of each;
    test/operators.test.cpp checks the operators on option<int>.  Here the parts of the body that are
    about values are run on the bytes of the sample values (x86-64 Linux, libstdc++), and the operator
    tests on the functions of Api.v and Observe.v.  These are tests of the model, not properties of
    it. *)
From Coq Require Import ZArith NArith List Bool.
From Verif Require Import Outcome Words Ints Types OptBytes TestsTraits.
From Verif Require Lifetime Classes Api Observe.
Import ListNotations.
Open Scope N_scope.

(** * test/option.test.cpp *)

Record sample : Type := mksample {
  s_ty : ty;
  s_td : bool;          (* trivially destructible *)
  s_scalar : bool;      (* std::is_scalar *)
  s_vals : list bytes   (* five values *)
}.

Definition v (s : sample) (i : nat) : bytes := nth i (s_vals s) [].
Definition junk (s : sample) : bytes := repeat 171 (sizeof (TOption (s_ty s))).
Definition keep {A} (r : res A) : option A := match r with Ok a => Some a | _ => None end.

(** 203-209: five nested options are as large as T. *)
Definition sizes (s : sample) : bool :=
  forallb (fun n => Nat.eqb (sizeof (nest n (s_ty s))) (sizeof (s_ty s))) [1; 2; 3; 4; 5]%nat.

(** 211-235, 237-248: the constructors, and emplace over a value *)
Definition constructors (s : sample) : bool :=
  test (s_td s) (s_scalar s) (s_ty s)
    [SEmplace (v s 0); SIs (v s 0); SEmplace (v s 1); SIs (v s 1)]
  && match opt_construct (s_ty s) (v s 0) (junk s) with
     | Ok b => tsteps (s_td s) (s_scalar s) (s_ty s) [SHas true; SIs (v s 0); SEmplace (v s 1); SIs (v s 1)] b
     | _ => false
     end.

(** 257-305, 337-342: assignment of values *)
Definition value_assignments (s : sample) : bool :=
  test (s_td s) (s_scalar s) (s_ty s)
    [SAssign (v s 0); SReset; SHas false; SAssign (v s 3); SHas true; SIs (v s 3); SAssign (v s 4);
     SIs (v s 4); SReset; SReset; SHas false; SAssign (v s 0); SIs (v s 0); SAssign (v s 0); SIs (v s 0);
     SAssign (v s 1); SIs (v s 1)].

(** a = option<T>{...}: [None] for an empty source *)
Definition src (s : sample) (o : option nat) : res bytes :=
  match o with
  | Some i => opt_construct (s_ty s) (v s i) (junk s)
  | None => opt_default (s_ty s) (junk s)
  end.
Definition holds (s : sample) (o : option nat) (b : bytes) : bool :=
  match o with
  | Some i => tsteps (s_td s) (s_scalar s) (s_ty s) [SHas true; SIs (v s i)] b
  | None => tsteps (s_td s) (s_scalar s) (s_ty s) [SHas false] b
  end.
(** 262-370: assignment and copies of options, for every pair of empty and two values *)
Definition states : list (option nat) := [None; Some 0%nat; Some 1%nat; Some 4%nat].
Definition option_assignments (s : sample) : bool :=
  forallb (fun x => forallb (fun y =>
    match src s x, src s y with
    | Ok a, Ok b =>
        match opt_assign (s_td s) (s_ty s) a b, opt_copy (s_ty s) a (junk s) with
        | Ok b', Ok c => holds s x b' && holds s x c && holds s x a
        | _, _ => false
        end
    | _, _ => false
    end) states) states.
(** 372-433: writing through the reference *)
Definition ref_assignments (s : sample) : bool :=
  test (s_td s) (s_scalar s) (s_ty s)
    [SAssign (v s 0); SIs (v s 0); SPut (v s 1); SIs (v s 1); SEmplace (v s 1); SPut (v s 0); SHas true;
     SIs (v s 0); SPut (v s 1); SIs (v s 1); SPut (v s 2); SIs (v s 2)].
(** 435-456 *)
Definition reset_emplace (s : sample) : bool :=
  test (s_td s) (s_scalar s) (s_ty s)
    [SReset; SHas false; SAssign (v s 0); SHas true; SReset; SHas false; SEmplace (v s 1); SIs (v s 1);
     SEmplace (v s 0); SIs (v s 0)].
(** 573-594 *)
Definition takes (s : sample) : bool :=
  forallb (fun x =>
    match src s x with
    | Ok a =>
        match opt_take (s_td s) (s_ty s) a (junk s) with
        | Ok (r, a') => holds s x r && holds s None a'
        | _ => false
        end
    | _ => false
    end) states.
(** 1012-1036 *)
Definition swaps (s : sample) : bool :=
  forallb (fun x => forallb (fun y =>
    match src s x, src s y with
    | Ok a, Ok b =>
        match opt_swap (s_td s) (s_ty s) a b with
        | Ok (a', b') => holds s y a' && holds s x b'
        | _ => false
        end
    | _, _ => false
    end) states) states.
(** 1037-1053 *)
Definition try_emplaces (s : sample) : bool :=
  forallb (fun x =>
    match src s x with
    | Ok a =>
        match opt_try_emplace (s_ty s) (v s 1) a with
        | Ok a' => holds s (match x with Some i => Some i | None => Some 1%nat end) a'
        | _ => false
        end
    | _ => false
    end) states.
(** 626-643 *)
Definition nested_steps (s : sample) : bool :=
  test (s_td s) false (TOption (s_ty s))
    [SAssign (some_ (s_ty s) (v s 0)); SInner (SIs (v s 0)); SInner SReset; SInner (SHas false); SHas true;
     SInner (SAssign (v s 1)); SInner (SIs (v s 1)); SReset; SHas false].

Definition body (s : sample) : bool :=
  constructors s && value_assignments s && option_assignments s && ref_assignments s && reset_emplace s
  && takes s && swaps s && try_emplaces s && nested_steps s.

Definition f32s : list bytes := [f1; f2; f3; le 4 0x40800000; le 4 0x40A00000].
Definition f64s : list bytes :=
  [d1; le 8 0x4000000000000000; le 8 0x4008000000000000; le 8 0x4010000000000000; le 8 0x4014000000000000].
Definition ptrs : list bytes := map (fun i => le 8 (0x7FFE1000 + 4 * i)) [0; 1; 2; 3; 4].
Definition ints5 : list bytes := map (vi i32) [1; 2; 3; 4; 5]%Z.
Definition zip_with {A B C} (f : A -> B -> C) (l : list A) (m : list B) : list C :=
  map (fun p => f (fst p) (snd p)) (combine l m).
Definition app2 : list bytes -> list bytes -> list bytes := zip_with (@app N).
Definition zeros (n : nat) : list bytes := repeat (repeat 0 n) 5.

(** 1071-1096: the types, in the order of the test.  int& and const int& are pointers inside and are
    tested in RefOpt; function pointers are pointers. *)
Definition samples : list sample := [
  (* std::vector<int>: begin, end, capacity end *)
  mksample (TVector 8) false false
    (map (fun i => le 8 (0x55550000 + 64 * i) ++ le 8 (0x55550004 + 68 * i) ++ le 8 (0x55550004 + 68 * i)) [0; 1; 2; 3; 4]);
  mksample (TEnforce (TFloat32 true)) true false f32s;
  mksample (TSentinel i32 [-1; -2; -3; -4; -5]%Z) true false ints5;
  (* std::string: short and long ones *)
  mksample (TString 8 LibStdCpp) false false
    [short_string 3; long_string 40; short_string 3; long_string 40; short_string 3];
  (* struct_with_padding_member *)
  mksample (TPadding 8 4 4 1) true false (app2 ints5 (zeros 4));
  (* int( * )(int) *)
  mksample TPtr64 true true ptrs;
  mksample (TStringView 8 false) true false (app2 (repeat (le 8 2) 5) ptrs);
  (* polymorphic_type *)
  mksample (TPoly 8 16 8) false false (app2 (repeat (le 8 0x403DB8) 5) (app2 ints5 (zeros 4)));
  (* aggregate_int_float *)
  mksample (TTuple [(0, tint); (4, tfloat)]%nat 8 4) true false (app2 ints5 f32s);
  (* std::tuple<int, float, int> *)
  mksample (TTuple [(8, tint); (4, tfloat); (0, tint)]%nat 12 4) true false (app2 ints5 (app2 f32s ints5));
  mksample (TFloat64 true) true true f64s;
  mksample TBool true true [[0]; [1]; [0]; [1]; [0]];
  mksample (TRefWrap 8) true false (map (fun i => le 8 (0x7FFE1000 + 4 * i)) [0; 1; 2; 3; 4]);
  mksample TPtr64 true true ptrs;
  mksample (TFloat32 true) true true f32s;
  mksample (TPair 0 tint 4 tfloat 8 4) true false (app2 ints5 f32s);
  mksample (TPair 0 tfloat 4 tint 8 4) true false (app2 f32s ints5);
  mksample (TArray 4 tfloat) true false (app2 (app2 f32s f32s) (app2 f32s f32s));
  mksample (TComplex tfloat) true false (app2 f32s f32s)
].

Example sizes_all : forallb sizes samples = true.
Proof. vm_compute. reflexivity. Qed.
Example body_all : forallb body samples = true.
Proof. vm_compute. reflexivity. Qed.
(** int is exempt from the size checks in the test, too. *)
Example body_int : body (mksample tint true true ints5) = true.
Proof. vm_compute. reflexivity. Qed.

(** * test/operators.test.cpp *)

Import Lifetime Classes Api Observe.

Definition I : cls unit := Classes.plain 0.
Definition A : cell I := mkcell (C := I) 1 1 true.
Definition B : cell I := mkcell (C := I) 2 1 true.
Definition E : cell I := mkcell (C := I) 0 0 false.

Definition op (f : N -> N -> bool) (x y : N) : Lifetime.out bool := Ret (f x y).
Definition yes (m : Lifetime.out bool) : bool := match m with Ret b => b | _ => false end.
Definition no (m : Lifetime.out bool) : bool := match m with Ret b => negb b | _ => false end.

(** 18-75 *)
Example eq_tests :
  let eq := c_eq (C := I) (D := I) (op N.eqb) in
  yes (eq A A) && no (eq A B) && yes (eq E E) && no (eq A E)
  && yes (eq_value (C := I) (op N.eqb) A 1) && no (eq_value (C := I) (op N.eqb) E 1) = true.
Proof. reflexivity. Qed.
Example ne_tests :
  let neq x y := negb (N.eqb x y) in
  let ne := c_ne (C := I) (D := I) (op neq) in
  yes (ne A B) && no (ne A A) && yes (ne A E) && no (ne E E)
  && yes (ne_value (C := I) (op neq) B 1) && yes (ne_value (C := I) (op neq) E 1) = true.
Proof. reflexivity. Qed.
Definition gtb x y := N.ltb y x.
Definition geb x y := N.leb y x.
Example lt_tests :
  let lt := c_lt (C := I) (D := I) (op N.ltb) in
  yes (lt A B) && no (lt A A) && yes (lt E A) && no (lt E E)
  && yes (lt_value (C := I) (op N.ltb) A 2) && no (gt_value (C := I) (op gtb) E 1) = true.
Proof. reflexivity. Qed.
Example le_tests :
  let le := c_le (C := I) (D := I) (op N.leb) in
  yes (le A A) && no (le B A) && yes (le E A) && no (le A E)
  && yes (le_value (C := I) (op N.leb) A 1) && no (value_le (C := I) (op N.leb) 1 E) = true.
Proof. reflexivity. Qed.
Example gt_tests :
  let gt := c_gt (C := I) (D := I) (op gtb) in
  yes (gt B A) && no (gt A A) && yes (gt A E) && no (gt E A)
  && yes (gt_value (C := I) (op gtb) B 1) && no (gt_value (C := I) (op gtb) E 1) = true.
Proof. reflexivity. Qed.
Example ge_tests :
  let ge := c_ge (C := I) (D := I) (op geb) in
  yes (ge A A) && no (ge A B) && yes (ge A E) && no (ge E A)
  && yes (ge_value (C := I) (op geb) B 1) && no (ge_value (C := I) (op geb) E 1) = true.
Proof. reflexivity. Qed.

(** 76-94.  What an option holds: nothing or a number. *)
Definition held (c : cell I) : option N := if c_flag c =? 0 then None else Some (c_raw c).
Definition fresh : cell I := mkcell (C := I) 99 77 false.
Definition result {X} (m : Lifetime.out (cell I * X)) : option (option N) :=
  match m with Ret (c, _) => Some (held c) | _ => None end.

Example or_tests :
  let or a b := result (a_or I ByCopy ByCopy fresh a b tt) in
  (or A (mkcell (C := I) 3 1 true), or A E, or E B, or A B, or E E)
  = (Some (Some 1), Some (Some 1), Some (Some 2), Some (Some 1), Some None).
Proof. reflexivity. Qed.
Example and_tests :
  let and a b := result (a_and I I ByCopy fresh a (b, tt)) in
  (and A B, and E B, and A E, and E E) = (Some (Some 2), Some None, Some None, Some None).
Proof. reflexivity. Qed.
Example xor_tests :
  let xor a b := result (a_xor I ByCopy ByCopy fresh a b tt) in
  (xor A B, xor A E, xor E B, xor E E) = (Some None, Some (Some 1), Some (Some 2), Some None).
Proof. reflexivity. Qed.
(** 95-112 *)
Example or_assign_tests :
  let f b c := result (a_or_assign_copy I b c tt) in
  let g i c := result (a_or_assign I (IVal i) c tt) in
  (f B A, f E A, f E E, f B E, g 3 E, g 4 (mkcell (C := I) 3 1 true))
  = (Some (Some 1), Some (Some 1), Some None, Some (Some 2), Some (Some 3), Some (Some 3)).
Proof. reflexivity. Qed.
