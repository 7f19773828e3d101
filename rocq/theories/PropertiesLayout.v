(** Property C82: layouts computed from declarations. *)
From Coq Require Import ZArith NArith List Bool Lia.
From Verif Require Import Outcome Words Ints Types OptBytes TypesSpec Lifetime History ByteClass ByteProg ByteProgSpec Alias AliasSpec AliasFacts
  FindingsFacts Layout LayoutSpec LayoutFacts PropertiesBytes.
Import ListNotations.
Open Scope nat_scope.

(** C82: every declared type is well formed; its alignment is a power of two and divides its size. *)
Theorem C82_well_formed : forall d, declared d -> wf (layout d) /\ pow2 (alignof (layout d)).
Proof. exact layout_good. Qed.
Print Assumptions C82_well_formed.

(** C82: members of declared types do not overlap and are aligned. *)
Theorem C82_members : forall d i o t, declared d -> field (layout d) i = Some (o, t) ->
  apart (layout d) /\ Nat.divide (alignof t) o /\ Nat.divide (alignof t) (alignof (layout d)) /\ exists d', declared d' /\ t = layout d'.
Proof. exact field_declared. Qed.
Print Assumptions C82_members.

(** C82: declared variables do not overlap, and every object inside them, at any depth of members and options, is aligned. *)
Theorem C82_variables : forall ds, Forall declared ds -> laid_out (variables ds) (extent ds).
Proof. exact variables_laid_out. Qed.
Print Assumptions C82_variables.

Theorem C82_aligned : forall ds, Forall declared ds -> forall p t, place_ty (variables ds) p = Some t ->
  clear_place (variables ds) p /\ Nat.divide (alignof t) (base (variables ds) p).
Proof. exact every_place_clear. Qed.
Print Assumptions C82_aligned.

(** C82: well-typed programs over declared variables do what C53 and C80 promise; nothing is assumed about offsets. *)
Theorem C82_programs : forall ds, Forall declared ds -> forall k rs m a,
  sized (extent ds) m -> represents (variables ds) m a -> Forall (well_typed (variables ds)) rs ->
  match rsrun (variables ds) rs a with
  | (tr, SDone a' _) => exists m', rrun k (variables ds) rs m = (tr, Ok m') /\ sized (extent ds) m' /\ represents (variables ds) m' a' /\
      forall i, elsewhere (variables ds) i -> nth_error m' i = nth_error m i
  | (tr, SStop) => rrun k (variables ds) rs m = (tr, Verify)
  | (_, SWrong) => True
  end.
Proof. exact declared_run. Qed.
Print Assumptions C82_programs.

(** option<tuple<float, option<bool>, pair<bool, double>>> x; option<bool> y; option<array<long, 3>> z;  float has unused values
    here (docs/builtin_traits.md: with reserved NaNs). *)
Definition int_ : decl := DType (TOpaque 4 4).
Definition long_ : decl := DType (TOpaque 8 8).
Definition bool_ : decl := DType TBool.
Definition float_ : decl := DType (TFloat32 true).
Definition double_ : decl := DType (TFloat64 true).
Definition ds_ex (backwards : bool) : list decl :=
  [DOption (DTuple backwards [float_; DOption bool_; DPair bool_ double_]); DOption bool_; DOption (DArray 3 long_)].
Example C82_ex : forall b, Forall declared (ds_ex b).
Proof.
  intros b. assert (P8 : pow2 8) by (exists 3; reflexivity). assert (P4 : pow2 4) by (exists 2; reflexivity).
  assert (P1 : pow2 1) by (exists 0; reflexivity). unfold ds_ex.
  repeat (apply Forall_cons || apply Forall_nil); cbn [declared float_ double_ bool_ long_ int_ leaf wf alignof];
    repeat split; try assumption; try lia; try (exists 1; reflexivity); unfold room; destruct b; vm_compute; auto; right; congruence.
Qed.
Example C82_ex_offsets :
  variables (ds_ex false) = [(0, TOption (TTuple [(0, TFloat32 true); (4, TOption TBool); (8, TPair 0 TBool 8 (TFloat64 true) 16 8)] 24 8));
    (24, TOption TBool); (32, TOption (TArray 3 (TOpaque 8 8)))] /\ extent (ds_ex false) = 64 /\
  variables (ds_ex true) = [(0, TOption (TTuple [(20, TFloat32 true); (16, TOption TBool); (0, TPair 0 TBool 8 (TFloat64 true) 16 8)] 24 8));
    (24, TOption TBool); (32, TOption (TArray 3 (TOpaque 8 8)))] /\ extent (ds_ex true) = 64.
Proof. repeat split; vm_compute; reflexivity. Qed.
Definition rs_ex : list rop := [
  RPlain (ONew 0 (Some ([1; 2; 3; 4; 1; 9; 9; 9; 1; 9; 9; 9; 9; 9; 9; 9; 1; 2; 3; 4; 5; 6; 7; 8]%N)));
  RNew 1 (0, [Deref; Field 2; Field 0]);                      (* option<bool> y(get<2>( *x ).first); *)
  RPlain (OReset (0, [Deref; Field 1]));
  RPlain (OHas (0, [Deref; Field 1])); RPlain (OHas (0, [])); RPlain (OGet (1, [])) ].
Example C82_ex_typed : Forall (well_typed (variables (ds_ex false))) rs_ex.
Proof.
  unfold rs_ex. repeat (apply Forall_cons; [cbn [well_typed]|]); [..|apply Forall_nil].
  - exists (TTuple [(0, TFloat32 true); (4, TOption TBool); (8, TPair 0 TBool 8 (TFloat64 true) 16 8)] 24 8). split; [reflexivity|].
    assert (Z : forall n b, bytes_ok n b = true -> sized n b) by exact bytes_ok_sized.
    assert (NB : forall a l x, (x <? a)%N = true -> ~ in_block a l x) by (intros a l x H (H1 & _); apply N.ltb_lt in H; lia).
    cbn [valid]. split; [apply Z; vm_compute; reflexivity|]. split; [|split; [|split]].
    + split; [apply Z; vm_compute; reflexivity|]. apply NB. vm_compute. reflexivity.
    + split; [apply Z; vm_compute; reflexivity|]. right. split; [vm_compute; reflexivity|].
      split; [apply Z; vm_compute; reflexivity|]. right. vm_compute. reflexivity.
    + split; [apply Z; vm_compute; reflexivity|]. split.
      * split; [apply Z; vm_compute; reflexivity|]. right. vm_compute. reflexivity.
      * split; [apply Z; vm_compute; reflexivity|]. apply NB. vm_compute. reflexivity.
    + exact I.
  - exists TBool. split; reflexivity.
  - exists TBool. reflexivity.
  - exists TBool. reflexivity.
  - eexists. reflexivity.
  - exists TBool. reflexivity.
Qed.
Example C82_ex_run : fst (rrun (fun _ => ex_triv) (variables (ds_ex false)) rs_ex (repeat 173%N 64)) =
    [SeenHas false; SeenHas true; SeenValue (VBytes [1%N])] /\
  fst (rsrun (variables (ds_ex false)) rs_ex [None; None; None]) = [SeenHas false; SeenHas true; SeenValue (VBytes [1%N])].
Proof. split; vm_compute; reflexivity. Qed.

(** The sizes that test/special.test.cpp 270-405 checks, for both orders of tuple elements. *)
Definition grows (d : decl) : bool := Nat.ltb (sizeof (layout d)) (sizeof (layout (DOption d))).
Example C82_tests : forall b,
  map grows [DTuple b [int_; float_]; DTuple b [float_; int_]; DTuple b [float_; double_]; DTuple b [float_; int_; double_];
             DTuple b [DTuple b [float_; int_]; long_]; DTuple b [int_; DTuple b [float_; long_]];
             DPair int_ float_; DPair float_ int_; DPair (DPair float_ int_) int_; DPair int_ (DPair float_ int_);
             DArray 2 float_; DArray 1 double_] = repeat false 12 /\
  map grows [DTuple b [int_; long_]; DPair int_ long_; DArray 2 int_] = repeat true 3.
Proof. intros []; split; vm_compute; reflexivity. Qed.
