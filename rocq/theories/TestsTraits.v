(** The project's own tests of the built-in and the user-supplied traits, run in the model.

    test/special.test.cpp and test/special_traits.test.cpp check sizes, and has_value() and the
    contained value after a few operations.  Here the same checks are made with the functions of
    Types.v and OptBytes.v, for the layout of x86-64 Linux with libstdc++.  These are tests of the
    model, not properties of it. *)
From Coq Require Import ZArith NArith List Bool.
From Verif Require Import Outcome Words Ints Types OptBytes CustomTraits.
Import ListNotations.
Open Scope N_scope.

(** What a test does with an option: a statement or a check. *)
Inductive tstep : Type :=
| SReset                      (* a.reset(), a = opt::none *)
| SAssign (v : bytes)         (* a = v *)
| SEmplace (v : bytes)        (* a.emplace(...), the new object being v *)
| SPoke (v : bytes)           (* a.get_unchecked() = v *)
| SPut (v : bytes)            (* *a = v for a T that is not an option *)
| SHas (h : bool)             (* CHECK(a.has_value() == h) *)
| SIs (v : bytes)             (* CHECK_EQ( *a, v ) *)
| SRaw (v : bytes)            (* CHECK_EQ(a.get_unchecked(), v) *)
| SInner (s : tstep).         (* the same of *a, which is an option too *)

Definition bytes_eqb (a b : bytes) : bool := if list_eq_dec N.eq_dec a b then true else false.

(** [None]: a check failed, or the statement did not end normally. *)
Fixpoint tstep_run (td scalar : bool) (t : ty) (s : tstep) (b : bytes) {struct s} : option bytes :=
  let keep (r : res bytes) := match r with Ok b' => Some b' | _ => None end in
  match s with
  | SReset => keep (opt_reset td t b)
  | SAssign v => keep (opt_assign_value scalar t v b)
  | SEmplace v => keep (opt_emplace td t v b)
  | SPoke v => Some (splice 0 v b)
  | SPut v => keep (opt_put t v b)
  | SHas h => match opt_has_value t b with Ok h' => if Bool.eqb h h' then Some b else None | _ => None end
  | SIs v => match opt_get t b with Ok x => if bytes_eqb x v then Some b else None | _ => None end
  | SRaw v => if bytes_eqb (slice 0 (sizeof t) b) v then Some b else None
  | SInner s =>
      match t, opt_get t b with
      | TOption t', Ok x =>
          match tstep_run td scalar t' s x with Some x' => Some (splice 0 x' b) | None => None end
      | _, _ => None
      end
  end.

Fixpoint tsteps (td scalar : bool) (t : ty) (ss : list tstep) (b : bytes) : bool :=
  match ss with
  | [] => true
  | s :: ss => match tstep_run td scalar t s b with Some b' => tsteps td scalar t ss b' | None => false end
  end.

(** A test starting from a default-constructed option in storage full of some byte. *)
Definition test (td scalar : bool) (t : ty) (ss : list tstep) : bool :=
  forallb (fun junk =>
    match opt_default t (repeat junk (sizeof (TOption t))) with
    | Ok b => tsteps td scalar t (SHas false :: ss) b
    | _ => false
    end) [0; 1; 66; 170; 254; 255].

(** sizeof(opt::option<T>) == sizeof(T) *)
Definition same_size (t : ty) : bool := Nat.eqb (sizeof (TOption t)) (sizeof t).

Definition le (n : nat) (x : N) : bytes := le_encode n x.
Definition i32 : ity := {| iw := 4; isg := true |}.
Definition u32 : ity := {| iw := 4; isg := false |}.
Definition i8 : ity := {| iw := 1; isg := true |}.
Definition u8 : ity := {| iw := 1; isg := false |}.
Definition vi (it : ity) (z : Z) : bytes := int_encode it z.
(** IEEE 754: 1.f, 2.f, 2.5f, 3.f; 1.0, 3.1415 *)
Definition f1 : bytes := le 4 0x3F800000.
Definition f2 : bytes := le 4 0x40000000.
Definition f25 : bytes := le 4 0x40200000.
Definition f3 : bytes := le 4 0x40400000.
Definition d1 : bytes := le 8 0x3FF0000000000000.
Definition dpi : bytes := le 8 0x400921CAC083126F.

Definition tint : ty := TOpaque 4 4.
Definition tlong : ty := TOpaque 8 8.
Definition tfloat : ty := TFloat32 true.
Definition tdouble : ty := TFloat64 true.

(** The option made from a value: opt::option<T>{v}. *)
Definition some_ (t : ty) (v : bytes) : bytes :=
  match opt_construct t v (repeat 0 (sizeof (TOption t))) with Ok b => b | _ => [] end.

(** * test/special_traits.test.cpp *)

(** 24-51 *)
Example sentinel_no_values : same_size (TSentinel i32 []) = false.
Proof. vm_compute. reflexivity. Qed.
Example sentinel_int_flag :
  test true true (TSentinel i32 [])
    [SAssign (vi i32 1); SIs (vi i32 1); SReset; SHas false; SAssign (vi i32 2); SPut (vi i32 3);
     SIs (vi i32 3); SPut (vi i32 1); SIs (vi i32 1)] = true.
Proof. vm_compute. reflexivity. Qed.
Example sentinel_int_zero : same_size (TSentinel i32 [0%Z]) = true.
Proof. vm_compute. reflexivity. Qed.
Example sentinel_int_zero_steps :
  test true true (TSentinel i32 [0%Z])
    [SAssign (vi i32 1); SIs (vi i32 1); SReset; SHas false; SPoke (vi i32 0); SHas false] = true.
Proof. vm_compute. reflexivity. Qed.
(** 52-64 *)
Example sentinel_nested : same_size (TOption (TSentinel i32 [0%Z])) = false.
Proof. vm_compute. reflexivity. Qed.
Example sentinel_nested_steps :
  test true false (TOption (TSentinel i32 [0%Z]))
    [SAssign (some_ (TSentinel i32 [0%Z]) (vi i32 2)); SHas true; SInner (SHas true);
     SInner (SIs (vi i32 2)); SReset; SHas false; SPoke (vi i32 0); SHas false] = true.
Proof. vm_compute. reflexivity. Qed.
(** 74-136 *)
Example sentinel_uint_max :
  test true true (TSentinel u32 [4294967295%Z])
    [SAssign (vi u32 1); SIs (vi u32 1); SAssign (vi u32 0); SIs (vi u32 0); SReset; SHas false;
     SAssign (vi u32 2); SIs (vi u32 2); SPoke (vi u32 4294967295); SHas false] = true.
Proof. vm_compute. reflexivity. Qed.
Example sentinel_uint_two_size :
  same_size (TSentinel u32 [1; 2]%Z) && same_size (TOption (TSentinel u32 [1; 2]%Z))
  && negb (same_size (TOption (TOption (TSentinel u32 [10; 20]%Z)))) = true.
Proof. vm_compute. reflexivity. Qed.
Example sentinel_uint_two :
  test true true (TSentinel u32 [1; 2]%Z)
    [SEmplace (vi u32 0); SIs (vi u32 0); SAssign (vi u32 3); SIs (vi u32 3); SReset; SHas false] = true.
Proof. vm_compute. reflexivity. Qed.
Example sentinel_uint_two_nested :
  let t := TSentinel u32 [1; 2]%Z in
  test true false (TOption t)
    [SAssign (some_ t (vi u32 0)); SInner (SIs (vi u32 0)); SAssign (some_ t (vi u32 3));
     SInner (SIs (vi u32 3)); SInner SReset; SInner (SHas false); SInner (SAssign (vi u32 4));
     SInner (SIs (vi u32 4)); SReset; SHas false] = true.
Proof. vm_compute. reflexivity. Qed.
Example sentinel_uint_two_nested_twice :
  let t := TSentinel u32 [10; 20]%Z in
  test true false (TOption (TOption t))
    [SAssign (some_ (TOption t) (some_ t (vi u32 0))); SInner (SInner (SIs (vi u32 0)));
     SAssign (some_ (TOption t) (some_ t (vi u32 1))); SInner (SInner (SIs (vi u32 1)));
     SAssign (some_ (TOption t) (some_ t (vi u32 2))); SInner (SInner (SIs (vi u32 2)));
     SInner (SInner SReset); SInner (SInner (SHas false)); SInner SReset; SInner (SHas false);
     SReset; SHas false] = true.
Proof. vm_compute. reflexivity. Qed.
(** 138-149: a pointer with nullptr as its sentinel, taken as an unsigned integer *)
Example sentinel_pointer :
  let t := TSentinel {| iw := 8; isg := false |} [0%Z] in
  same_size t && test true true t [SAssign (le 8 0x7FFE1234); SIs (le 8 0x7FFE1234); SReset; SHas false]
  = true.
Proof. vm_compute. reflexivity. Qed.
(** 153-168: the member is a float at offset 0 *)
Example member_float :
  let t := TMember 0 tfloat 4 4 in
  same_size t && test true false t [SAssign f2; SIs f2; SReset; SHas false] = true.
Proof. vm_compute. reflexivity. Qed.
(** 170-175 *)
Example enforce_floats :
  same_size (TEnforce tfloat) && same_size (TEnforce tdouble) && test true false (TEnforce tfloat) []
  = true.
Proof. vm_compute. reflexivity. Qed.
(** 177-191: Compare is x + 1 == y - 1, Set is x = y - 2, the value is -1. *)
Definition sf : ty :=
  sf_type Z 4 4 (fun b y => (int_decode i32 b + 1 =? y - 1)%Z) (fun _ y => vi i32 (y - 2)) [(-1)%Z].
Example sentinel_f_int :
  same_size sf
  && test true true sf [SEmplace (vi i32 1); SIs (vi i32 1); SReset; SHas false; SReset; SHas false] = true.
Proof. vm_compute. reflexivity. Qed.
(** 193-208: my_type1 with sentinel_value{1} *)
Example sentinel_option_traits :
  let t := TSentTraits i32 1 in
  same_size t
  && test true false t
       [SAssign (vi i32 2); SIs (vi i32 2); SPut (vi i32 3); SIs (vi i32 3); SReset; SHas false;
        SRaw (vi i32 1); SPoke (vi i32 0); SIs (vi i32 0); SPut (vi i32 1); SHas false] = true.
Proof. vm_compute. reflexivity. Qed.

(** * test/special.test.cpp *)

(** 265-337: std::tuple.  libstdc++ lays the elements out in reverse order. *)
Definition tuple_if : ty := TTuple [(4, tint); (0, tfloat)]%nat 8 4.
Definition tuple_fi : ty := TTuple [(4, tfloat); (0, tint)]%nat 8 4.
Definition tuple_il : ty := TTuple [(8, tint); (0, tlong)]%nat 16 8.
Definition tuple_fd : ty := TTuple [(8, tfloat); (0, tdouble)]%nat 16 8.
Definition tuple_fid : ty := TTuple [(12, tfloat); (8, tint); (0, tdouble)]%nat 16 8.
Definition tuple_nested1 : ty := TTuple [(8, tuple_fi); (0, tlong)]%nat 16 8.
Definition tuple_fl : ty := TTuple [(8, tfloat); (0, tlong)]%nat 16 8.
Definition tuple_nested2 : ty := TTuple [(16, tint); (0, tuple_fl)]%nat 24 8.
Example tuple_sizes :
  same_size tuple_if && same_size tuple_fi && negb (same_size tuple_il) && same_size tuple_fd
  && same_size tuple_fid && same_size tuple_nested1 && same_size tuple_nested2 = true.
Proof. vm_compute. reflexivity. Qed.
Example tuple_steps :
  test true false tuple_if [SEmplace (f25 ++ vi i32 1); SIs (f25 ++ vi i32 1); SReset; SHas false]
  && test true false tuple_fd [SEmplace (dpi ++ f25 ++ le 4 9); SIs (dpi ++ f25 ++ le 4 9); SReset; SHas false]
  && test true false tuple_fid [SEmplace (d1 ++ vi i32 2 ++ f1); SIs (d1 ++ vi i32 2 ++ f1); SReset; SHas false]
  && test true false tuple_nested1 [SEmplace (le 8 3 ++ vi i32 2 ++ f1); SHas true; SReset; SHas false]
  && test true false tuple_nested2 [SEmplace (le 8 100 ++ f25 ++ le 4 0 ++ vi i32 1 ++ le 4 0); SHas true;
                                    SReset; SHas false]
  = true.
Proof. vm_compute. reflexivity. Qed.
(** 338-387: std::pair *)
Definition pair_if : ty := TPair 0 tint 4 tfloat 8 4.
Definition pair_fi : ty := TPair 0 tfloat 4 tint 8 4.
Definition pair_il : ty := TPair 0 tint 8 tlong 16 8.
Definition pair_nested1 : ty := TPair 0 pair_fi 8 tint 12 4.
Definition pair_nested2 : ty := TPair 0 tint 4 pair_fi 12 4.
Example pair_sizes :
  negb (same_size pair_il) && same_size pair_if && same_size pair_fi && same_size pair_nested1
  && same_size pair_nested2 = true.
Proof. vm_compute. reflexivity. Qed.
Example pair_steps :
  test true false pair_if [SEmplace (vi i32 1 ++ f2); SIs (vi i32 1 ++ f2); SReset; SHas false;
                           SEmplace (vi i32 10 ++ f3); SIs (vi i32 10 ++ f3)]
  && test true false pair_fi [SEmplace (f3 ++ vi i32 (-1)); SIs (f3 ++ vi i32 (-1)); SReset; SHas false]
  && test true false pair_nested1 [SEmplace (f1 ++ vi i32 250 ++ le 4 194); SHas true; SReset; SHas false]
  && test true false pair_nested2 [SEmplace (le 4 2 ++ f3 ++ vi i32 (-1)); SHas true; SReset; SHas false]
  = true.
Proof. vm_compute. reflexivity. Qed.
(** 388-409: std::array *)
Example array_steps :
  negb (same_size (TArray 2 tint)) && same_size (TArray 2 tfloat) && same_size (TArray 1 tdouble)
  && test true false (TArray 2 tfloat) [SAssign (f1 ++ f2); SIs (f1 ++ f2); SReset; SHas false]
  && test true false (TArray 1 tdouble) [SAssign dpi; SIs dpi; SReset; SHas false] = true.
Proof. vm_compute. reflexivity. Qed.
(** 412-453: std::unique_ptr; a->reset() makes it null, which is a value *)
Example unique_ptr_steps :
  let t := TUniquePtr 8 in
  same_size t
  && test false false t
       [SAssign (le 8 0x55550010); SIs (le 8 0x55550010); SAssign (le 8 0x55550020); SIs (le 8 0x55550020);
        SReset; SHas false; SAssign (le 8 0x55550030); SIs (le 8 0x55550030); SPut (le 8 0); SHas true;
        SIs (le 8 0); SReset; SHas false; SReset; SHas false; SEmplace (le 8 0x55550040);
        SIs (le 8 0x55550040); SEmplace (le 8 0x55550050); SIs (le 8 0x55550050)] = true.
Proof. vm_compute. reflexivity. Qed.
(** 455-563, compiled out: OPTION_HAS_BOOST_PFR is never defined (the header says OPTION_HAS_PFR).
    The reflected aggregates would pass, except the last: a struct with an empty first member has no
    unused state in this version, so its option is larger. *)
Definition agg (fs : list (nat * ty)) (n al : nat) : ty := TTuple fs n al.
Definition s1' : ty := agg [(0, tint); (4, tfloat)]%nat 8 4.
Definition s4' : ty := agg [(0, tfloat); (4, tint)]%nat 8 4.
Example aggregate_sizes :
  same_size s1' && same_size s4' && negb (same_size (agg [(0, tint); (8, tlong)]%nat 16 8))
  && same_size (agg [(0, tfloat); (8, tdouble)]%nat 16 8)
  && same_size (agg [(0, tint); (8, tlong); (16, tfloat)]%nat 24 8)
  && same_size (agg [(0, tint); (4, s1')]%nat 12 4) && same_size (agg [(0, s1'); (8, tfloat)]%nat 12 4)
  && same_size (agg [(0, s4'); (8, s4')]%nat 16 4) = true.
Proof. vm_compute. reflexivity. Qed.
Example aggregate_with_empty_member : same_size (agg [(0, TOpaque 1 1); (4, tint)]%nat 8 4) = false.
Proof. vm_compute. reflexivity. Qed.
(** 565-893: pointers to members; Itanium ABI: offset (null is -1), and two words for functions. *)
Example member_pointer :
  let t := TMemPtr64 8 in
  same_size t
  && test true true t
       [SAssign (le 8 0); SIs (le 8 0); SAssign (le 8 4); SIs (le 8 4); SAssign (le 8 0xFFFFFFFFFFFFFFFF);
        SHas true; SIs (le 8 0xFFFFFFFFFFFFFFFF); SReset; SHas false; SAssign (le 8 4); SHas true] = true.
Proof. vm_compute. reflexivity. Qed.
Example member_function_pointer :
  let t := TMemPtr64 16 in
  same_size t
  && test true true t
       [SAssign (le 8 0x401136 ++ le 8 0); SIs (le 8 0x401136 ++ le 8 0);
        SAssign (le 8 0x401150 ++ le 8 16); SIs (le 8 0x401150 ++ le 8 16); SReset; SHas false;
        SEmplace (le 8 9 ++ le 8 0); SIs (le 8 9 ++ le 8 0);      (* virtual: 1 + 8 *)
        SAssign (le 8 0 ++ le 8 0); SHas true; SIs (le 8 0 ++ le 8 0)] = true.
Proof. vm_compute. reflexivity. Qed.
(** 895-1034: PADDING members.  A brace-initialised object has PADDING == 0. *)
Example padding_u8 :
  same_size (TPadding 1 1 0 1) && same_size (TPadding 8 4 4 1)
  && test true false (TPadding 1 1 0 1) [SAssign (le 1 0); SHas true; SPut (le 1 0); SHas true; SReset; SHas false]
  && test true false (TPadding 8 4 4 1)
       [SEmplace (vi i32 5 ++ le 1 0 ++ le 3 7); SIs (vi i32 5 ++ le 1 0 ++ le 3 7);
        SPut (vi i32 10 ++ le 1 0 ++ le 3 7); SHas true; SPut (vi i32 (-100) ++ le 1 0 ++ le 3 0);
        SIs (vi i32 (-100) ++ le 1 0 ++ le 3 0)] = true.
Proof. vm_compute. reflexivity. Qed.
Example padding_u16_u32 :
  same_size (TPadding 2 2 0 2) && same_size (TPadding 8 4 4 2) && same_size (TPadding 4 4 0 4)
  && same_size (TPadding 8 4 4 4)
  && test true false (TPadding 2 2 0 2) [SEmplace (le 2 0); SHas true; SAssign (le 2 0); SHas true; SReset; SHas false]
  && test true false (TPadding 8 4 4 2) [SAssign (vi i32 123 ++ le 4 0); SHas true;
                                         SPut (vi i32 (-1) ++ le 4 0); SHas true; SReset; SHas false]
  && test true false (TPadding 8 4 4 4) [SAssign (vi i32 123 ++ le 4 0); SHas true;
                                         SPut (vi i32 (-1) ++ le 4 0); SHas true; SReset; SHas false]
  = true.
Proof. vm_compute. reflexivity. Qed.
(** 1036-1322: polymorphic classes; the vtable pointer comes first, then the ints. *)
Example polymorphic :
  let t := TPoly 8 16 8 in
  same_size t && same_size (TPoly 8 24 8) && same_size (TPoly 8 40 8)
  && test false false t
       [SAssign (le 8 0x403DB8 ++ vi i32 1 ++ le 4 0); SIs (le 8 0x403DB8 ++ vi i32 1 ++ le 4 0);
        SPut (le 8 0x403DB8 ++ vi i32 10 ++ le 4 0); SIs (le 8 0x403DB8 ++ vi i32 10 ++ le 4 0);
        SReset; SHas false] = true.
Proof. vm_compute. reflexivity. Qed.
(** 1325-1373: enum with SENTINEL.  b | e is 1 | 4 = 5 = SENTINEL. *)
Example enum_sentinel :
  let t := TEnumSent i32 5 in
  same_size t && negb (same_size (TOption t))
  && test true true t
       [SAssign (vi i32 0); SIs (vi i32 0); SAssign (vi i32 1); SIs (vi i32 1); SAssign (vi i32 2);
        SIs (vi i32 2); SAssign (vi i32 3); SIs (vi i32 3); SAssign (vi i32 4); SIs (vi i32 4);
        SPoke (vi i32 5); SHas false; SRaw (vi i32 5)] = true.
Proof. vm_compute. reflexivity. Qed.
Example enum_sentinel_i8 :
  let t := TEnumSent i8 (-10) in
  same_size t
  && test true true t
       [SAssign (vi i8 (-1)); SIs (vi i8 (-1)); SAssign (vi i8 0); SIs (vi i8 0); SAssign (vi i8 1);
        SIs (vi i8 1); SAssign (vi i8 2); SIs (vi i8 2); SReset; SHas false; SRaw (vi i8 (-10))] = true.
Proof. vm_compute. reflexivity. Qed.
(** 1374-1440: SENTINEL_START *)
Example enum_start_u8 :
  let t := TEnumStart u8 7 in
  same_size t && same_size (TOption t)
  && test true true t
       (flat_map (fun v => [SAssign (vi u8 v); SIs (vi u8 v)]) [0; 1; 2; 3; 4; 5; 6]%Z
        ++ [SReset; SHas false; SRaw (vi u8 7); SPoke (vi u8 7); SHas false; SRaw (vi u8 7)])
  && test true false (TOption t)
       [SAssign (some_ t (vi u8 0)); SInner (SIs (vi u8 0)); SInner SReset; SInner (SRaw (vi u8 7));
        SReset; SRaw (vi u8 8)] = true.
Proof. vm_compute. reflexivity. Qed.
Example enum_start_255 :
  let t := TEnumStart u8 255 in
  same_size t && negb (same_size (TOption t))
  && test true true t [SAssign (vi u8 0); SIs (vi u8 0); SReset; SHas false; SRaw (vi u8 255)] = true.
Proof. vm_compute. reflexivity. Qed.
Example enum_start_i8 :
  let t := TEnumStart i8 (-10) in
  same_size t
  && test true true t
       [SAssign (vi i8 (-11)); SIs (vi i8 (-11)); SAssign (vi i8 (-12)); SIs (vi i8 (-12));
        SAssign (vi i8 (-13)); SIs (vi i8 (-13)); SReset; SHas false; SRaw (vi i8 (-10))] = true.
Proof. vm_compute. reflexivity. Qed.
(** 1441-1487: SENTINEL_START and SENTINEL_END; a6 is 11, a10 is 15. *)
Example enum_start_end_u8 :
  let t := TEnumStartEnd u8 5 10 in
  (max_level t =? 6) && same_size t
  && test true true t
       [SAssign (vi u8 0); SIs (vi u8 0); SAssign (vi u8 4); SIs (vi u8 4); SAssign (vi u8 11);
        SIs (vi u8 11); SAssign (vi u8 15); SIs (vi u8 15); SReset; SHas false; SRaw (vi u8 5)] = true.
Proof. vm_compute. reflexivity. Qed.
Example enum_start_end_i8 :
  let t := TEnumStartEnd i8 (-100) (-99) in
  same_size t
  && test true true t
       [SAssign (vi i8 (-101)); SIs (vi i8 (-101)); SAssign (vi i8 (-98)); SIs (vi i8 (-98));
        SAssign (vi i8 (-97)); SIs (vi i8 (-97)); SReset; SHas false; SRaw (vi i8 (-100))] = true.
Proof. vm_compute. reflexivity. Qed.
(** 1490-1540: tuple-like classes, elements in declaration order *)
Example tuple_like :
  negb (same_size (agg [(0, tint); (8, tlong)]%nat 16 8)) && same_size s1' && same_size s4'
  && same_size (agg [(0, tfloat); (8, tdouble)]%nat 16 8)
  && negb (same_size (agg [(0, tint); (8, tlong); (16, tint)]%nat 24 8))
  && same_size (agg [(0, tint); (8, tlong); (16, tfloat)]%nat 24 8)
  && test true false s1' [SEmplace (vi i32 1 ++ f2); SIs (vi i32 1 ++ f2)]
  && test true false s4' [SEmplace (f1 ++ vi i32 2); SIs (f1 ++ vi i32 2)]
  && test true false (agg [(0, tint); (8, tlong); (16, tfloat)]%nat 24 8)
       [SEmplace (vi i32 1 ++ le 4 0 ++ le 8 2 ++ f3 ++ le 4 0);
        SIs (vi i32 1 ++ le 4 0 ++ le 8 2 ++ f3 ++ le 4 0)] = true.
Proof. vm_compute. reflexivity. Qed.
(** 1596-1628: std::string of libstdc++.  The pointer of a short string points into the string itself,
    that of a long one to the heap; sizes 0, 1, 15, 16 and 100 of the loop. *)
Definition short_string (n : N) : bytes := le 8 0x7FFE0010 ++ le 8 n ++ repeat 97 16.
Definition long_string (n : N) : bytes := le 8 0x55550010 ++ le 8 n ++ le 8 200 ++ repeat 0 8.
Example string_steps :
  let t := TString 8 LibStdCpp in
  same_size t
  && test false false t
       [SAssign (short_string 0); SIs (short_string 0); SPut (short_string 1); SHas true;
        SPut (short_string 15); SHas true; SPut (long_string 16); SHas true; SPut (long_string 100);
        SIs (long_string 100); SPut (long_string 0); SHas true; SPut (short_string 0); SHas true;
        SReset; SHas false] = true.
Proof. vm_compute. reflexivity. Qed.
(** 1763-1777: a user-written option_traits with max_level = 0 switches the unused states off. *)
Example user_traits_zero :
  same_size (TCustom 8 4 0 (fun _ => UB) (fun _ _ => UB) (fun _ => True)) = false.
Proof. vm_compute. reflexivity. Qed.
(** 90: sizeof(opt::option<int&>) == sizeof(int* ) *)
Example reference_size : Nat.eqb (sizeof (TOptRef 8)) 8 = true.
Proof. vm_compute. reflexivity. Qed.
