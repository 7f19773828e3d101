(** The project's own lifetime tests, run in the model.

    test/lifetime.test.cpp counts the calls of the special member functions of a class while an
    option is used.  Here the same statements are run on the functions of Lifetime.v and Api.v, and
    the counters are compared with the numbers written in the test.  These are tests of the model,
    not properties of it.  The statements of a block that the test writes in C++ are given with the
    temporaries that the language makes for them. *)
From Coq Require Import NArith Bool List.
From Verif Require Import Outcome Words Lifetime Classes Api.
Import ListNotations.
Open Scope N_scope.

(** 13-21: the counters, in the order of LIFETIME_CHECK. *)
Record counts : Type := mk {
  default_ctor : N; value_ctor : N; destructor : N; copy_ctor : N; move_ctor : N; copy_oper : N;
  move_oper : N
}.

Definition zero : counts := mk 0 0 0 0 0 0 0.

(** The constructor arguments that the test uses: none, an int, an lvalue and an rvalue of the class. *)
Inductive arg : Type := ADefault | AInt | ALvalue | ARvalue.

Definition built (a : arg) (w : counts) : counts :=
  let 'mk d v x cc mc ca ma := w in
  match a with
  | ADefault => mk (d + 1) v x cc mc ca ma
  | AInt => mk d (v + 1) x cc mc ca ma
  | ALvalue => mk d v x (cc + 1) mc ca ma
  | ARvalue => mk d v x cc (mc + 1) ca ma
  end.

Definition destroyed (w : counts) : counts :=
  let 'mk d v x cc mc ca ma := w in mk d v (x + 1) cc mc ca ma.
Definition copied_to (w : counts) : counts :=
  let 'mk d v x cc mc ca ma := w in mk d v x cc mc (ca + 1) ma.
Definition moved_to (w : counts) : counts :=
  let 'mk d v x cc mc ca ma := w in mk d v x cc mc ca (ma + 1).

(** Assigning an int converts it to a temporary first: the class has no operator=(int). *)
Definition assigned (a : arg) (w : counts) : counts :=
  match a with
  | ALvalue => copied_to w
  | ARvalue => moved_to w
  | _ => destroyed (moved_to (built a w))
  end.

(** 119-137: lifetime_tester.  It has no unused states, so the option has a flag. *)
Definition tester : cls counts := {|
  raw := unit;
  init := arg;
  td := false;
  tcc := false;
  tca := false;
  tmc := false;
  tma := false;
  scalar := false;
  ctor := fun a r w => Ret (r, built a w);
  cctor := fun _ r w => Ret (r, built ALvalue w);
  mctor := fun r sw => Ret (r, (fst sw, built ARvalue (snd sw)));
  asgn := fun a r w => Ret (r, assigned a w);
  cassign := fun _ r w => Ret (r, copied_to w);
  massign := fun r sw => Ret (r, (fst sw, moved_to (snd sw)));
  self_cassign := fun r w => Ret (r, copied_to w);
  self_massign := fun r w => Ret (r, moved_to w);
  swp := fun r sw => Ret (r, (fst sw, destroyed (moved_to (moved_to (built ARvalue (snd sw))))));
  self_swp := fun r w => Ret (r, destroyed (moved_to (moved_to (built ARvalue w))));
  dtor := fun r w => Ret (r, destroyed w);
  lmax := 0;
  lget := fun _ => 0;
  lset := fun _ r => r
|}.

Definition opt : Type := cell tester.
Definition raw_storage : opt := mkcell (C := tester) tt 77 false.
Definition empty : opt := mkcell (C := tester) tt 0 false.
Definition full : opt := mkcell (C := tester) tt 1 true.

(** A program over one option variable; [None] for anything but a normal end. *)
Definition prog : Type := opt -> counts -> out (opt * counts).

Definition seq (f g : prog) : prog := fun c w => match f c w with Ret (c', w') => g c' w' | m => m end.
Notation "f ;; g" := (seq f g) (at level 60, right associativity).

Definition tally (f : prog) (c : opt) : option counts :=
  match f c zero with Ret (_, w) => Some w | _ => None end.

(** An object of the class beside the option: lifetime_tester{a} at the start of the full
    expression, destroyed at its end. *)
Definition temporary (a : arg) (f : prog) : prog := fun c w =>
  match f c (built a w) with Ret (c', w') => Ret (c', destroyed w') | m => m end.

Definition make (i : oinit arg) : prog := o_ctor tester i.
Definition assign (i : oinit arg) : prog := o_asgn tester i.
Definition emplace (a : arg) : prog := o_emplace tester (o_reset tester) (ctor tester a).
Definition reset : prog := o_reset tester.
Definition drop : prog := o_dtor tester.

(** var = opt::option<lifetime_tester>{...}: a temporary option made with [i], moved from, destroyed. *)
Definition assign_option (i : oinit arg) : prog := fun c w =>
  match o_ctor tester i raw_storage w with
  | Ret (t, w1) =>
      match o_massign tester c (t, w1) with
      | Ret (c', (t', w2)) =>
          match o_dtor tester t' w2 with Ret (_, w3) => Ret (c', w3) | Exn (_, w3) => Exn (c', w3)
          | Abort => Abort | Undef => Undef end
      | Exn (c', (_, w2)) => Exn (c', w2)
      | Abort => Abort
      | Undef => Undef
      end
  | m => m
  end.

(** TEST_CASE("on opt::option"), 143-193. *)
Example on_option_default : tally (make INone ;; drop) raw_storage = Some (mk 0 0 0 0 0 0 0).
Proof. reflexivity. Qed.
Example on_option_int : tally (make (IVal AInt) ;; drop) raw_storage = Some (mk 0 1 1 0 0 0 0).
Proof. reflexivity. Qed.
Example on_option_braces :
  tally (temporary ADefault (make (IVal ARvalue)) ;; drop) raw_storage = Some (mk 1 0 2 0 1 0 0).
Proof. reflexivity. Qed.
Example on_option_in_place : tally (make (IVal ADefault) ;; drop) raw_storage = Some (mk 1 0 1 0 0 0 0).
Proof. reflexivity. Qed.
Example empty_from_temporary :
  tally (temporary AInt (assign (IVal ARvalue))) empty = Some (mk 0 1 1 0 1 0 0).
Proof. reflexivity. Qed.
Example full_from_temporary :
  tally (temporary AInt (assign (IVal ARvalue))) full = Some (mk 0 1 1 0 0 0 1).
Proof. reflexivity. Qed.
Example empty_from_empty : tally (assign_option INone) empty = Some (mk 0 0 0 0 0 0 0).
Proof. reflexivity. Qed.
Example empty_from_full : tally (assign_option (IVal AInt)) empty = Some (mk 0 1 1 0 1 0 0).
Proof. reflexivity. Qed.
Example full_from_empty : tally (assign_option INone) full = Some (mk 0 0 1 0 0 0 0).
Proof. reflexivity. Qed.
Example full_from_full : tally (assign_option (IVal AInt)) full = Some (mk 0 1 1 0 0 0 1).
Proof. reflexivity. Qed.
Example empty_from_lvalue : tally (assign (IVal ALvalue)) empty = Some (mk 0 0 0 1 0 0 0).
Proof. reflexivity. Qed.
Example full_from_lvalue : tally (assign (IVal ALvalue)) full = Some (mk 0 0 0 0 0 1 0).
Proof. reflexivity. Qed.
Example full_from_lvalue' : tally (o_set_from tester tt) full = Some (mk 0 0 0 0 0 1 0).
Proof. reflexivity. Qed.

(** TEST_CASE(".reset"), 243-254. *)
Example reset_empty : tally reset empty = Some (mk 0 0 0 0 0 0 0).
Proof. reflexivity. Qed.
Example reset_full : tally reset full = Some (mk 0 0 1 0 0 0 0).
Proof. reflexivity. Qed.

(** TEST_CASE(".emplace"), 256-286. *)
Example emplace_default : tally (emplace ADefault) empty = Some (mk 1 0 0 0 0 0 0).
Proof. reflexivity. Qed.
Example emplace_int : tally (emplace AInt) empty = Some (mk 0 1 0 0 0 0 0).
Proof. reflexivity. Qed.
Example emplace_copy : tally (emplace ALvalue) empty = Some (mk 0 0 0 1 0 0 0).
Proof. reflexivity. Qed.
Example emplace_move : tally (emplace ARvalue) empty = Some (mk 0 0 0 0 1 0 0).
Proof. reflexivity. Qed.
Example emplace_copy_full : tally (emplace ALvalue) full = Some (mk 0 0 1 1 0 0 0).
Proof. reflexivity. Qed.
Example emplace_move_full : tally (emplace ARvalue) full = Some (mk 0 0 1 0 1 0 0).
Proof. reflexivity. Qed.

(** TEST_CASE("opt::make_option"), 288-292: the result is built in place (3328-3340). *)
Example make_option : tally (make (IVal ADefault) ;; drop) raw_storage = Some (mk 1 0 1 0 0 0 0).
Proof. reflexivity. Qed.

(** TEST_CASE(".map"), 325-372: from option<int> ... *)
Definition ints : cls counts := {|
  raw := N; init := N; td := true; tcc := true; tca := true; tmc := true; tma := true; scalar := true;
  ctor := fun i _ w => Ret (i, w);
  cctor := fun s _ w => Ret (s, w);
  mctor := fun _ sw => Ret (fst sw, sw);
  asgn := fun i _ w => Ret (i, w);
  cassign := fun s _ w => Ret (s, w);
  massign := fun _ sw => Ret (fst sw, sw);
  self_cassign := fun r w => Ret (r, w);
  self_massign := fun r w => Ret (r, w);
  swp := fun a bw => Ret (fst bw, (a, snd bw));
  self_swp := fun r w => Ret (r, w);
  dtor := fun r w => Ret (r, w);
  lmax := 0; lget := fun _ => 0; lset := fun _ r => r
|}.

Definition int_option (v : option N) : cell ints :=
  match v with Some n => mkcell (C := ints) n 1 true | None => mkcell (C := ints) 0 0 false end.

(** (void)ivar.map(f) with f making a lifetime_tester from the int. *)
Definition map_from_int (a : arg) (v : option N) : option counts :=
  match a_map ints tester (fun r sw => lift (ctor tester a) r sw) raw_storage (int_option v, zero) with
  | Ret (t, (_, w)) => tally (fun c _ => drop t w) empty
  | _ => None
  end.

Example map_int : map_from_int AInt (Some 1) = Some (mk 0 1 1 0 0 0 0).
Proof. reflexivity. Qed.
Example map_int_none : map_from_int ADefault None = Some (mk 0 0 0 0 0 0 0).
Proof. reflexivity. Qed.

(** ... and to it. *)
Definition map_to_int (c : opt) (w : counts) : out (cell ints * (opt * counts)) :=
  a_map tester ints (fun _ sw => Ret (1, sw)) (int_option (Some 9)) (c, w).

(** (void)var0.map(fn) *)
Definition map_only (c : opt) : option counts :=
  match map_to_int c zero with Ret (_, (_, w)) => Some w | _ => None end.

(** var1 = var0.map(fn): the converting assignment from an rvalue option<int>. *)
Definition map_assign (c0 c1 : opt) : option counts :=
  match map_to_int c0 zero with
  | Ret (t, (_, w)) =>
      match a_conv_assign ints tester (fun r sw => lift (ctor tester AInt) r sw)
              (fun r sw => lift (asgn tester AInt) r sw) c1 (t, w) with
      | Ret (_, (_, w')) => Some w'
      | _ => None
      end
  | _ => None
  end.

Example map_empty : map_only empty = Some (mk 0 0 0 0 0 0 0).
Proof. reflexivity. Qed.
Example map_full : map_only full = Some (mk 0 0 0 0 0 0 0).
Proof. reflexivity. Qed.
Example map_empty_to_empty : map_assign empty empty = Some (mk 0 0 0 0 0 0 0).
Proof. reflexivity. Qed.
Example map_empty_to_full : map_assign empty full = Some (mk 0 0 1 0 0 0 0).
Proof. reflexivity. Qed.
Example map_full_to_empty : map_assign full empty = Some (mk 0 1 0 0 0 0 0).
Proof. reflexivity. Qed.
Example map_full_to_full : map_assign full full = Some (mk 0 1 1 0 0 0 1).
Proof. reflexivity. Qed.

(** 195-241 is commented out in the test.  Its numbers are those of an elided return in take (3036). *)
Definition take_assign (nrvo : bool) (c0 c1 : opt) : option counts :=
  match o_take tester nrvo raw_storage (c0, zero) with
  | Ret (t, (_, w)) =>
      match o_massign tester c1 (t, w) with
      | Ret (_, (t', w')) => tally (fun c _ => drop t' w') empty
      | _ => None
      end
  | _ => None
  end.
Definition take_only (nrvo : bool) (c0 : opt) : option counts :=
  match o_take tester nrvo raw_storage (c0, zero) with
  | Ret (t, (_, w)) => tally (fun c _ => drop t w) empty
  | _ => None
  end.

Example take_empty_to_empty : take_assign true empty empty = Some (mk 0 0 0 0 0 0 0).
Proof. reflexivity. Qed.
Example take_full : take_only true full = Some (mk 0 0 2 0 1 0 0).
Proof. reflexivity. Qed.
Example take_full_to_empty : take_assign true full empty = Some (mk 0 0 2 0 2 0 0).
Proof. reflexivity. Qed.
Example take_empty_to_full : take_assign true empty full = Some (mk 0 0 1 0 0 0 0).
Proof. reflexivity. Qed.
Example take_full_to_full : take_assign true full full = Some (mk 0 0 2 0 1 0 1).
Proof. reflexivity. Qed.
(** Without the elision there is one more move and one more destructor, which may be why. *)
Example take_full_not_elided : take_only false full = Some (mk 0 0 3 0 2 0 0).
Proof. reflexivity. Qed.
