(** What the functions of test/codegen/sample.cpp have to do, under the two calling conventions of the compilers
    the listings are for.

    The functions are given by the members of option they call, as modelled in OptBytes.v.  System V: arguments in
    rdi and rsi, results of up to 16 bytes in rax and rdx (options are returned like integers), larger results through
    a pointer in rdi; 128 bytes below rsp are scratch.  Windows: arguments in rcx and rdx, classes that are not
    trivial returned through a pointer in rcx; 32 bytes above the return address are scratch.  A bool is returned in
    al.  Saved registers do not occur in the listings. *)
From Coq Require Import ZArith NArith Bool List Ascii String.
From Verif Require Import Outcome Words Types OptBytes TypesSpec PyText CodegenSpec Asm.
Import ListNotations.
Open Scope N_scope.
Open Scope res_scope.

Inductive convention : Type := SystemV | Windows.

(** cl and clang-cl compile for Windows. *)
Definition convention_of (c : compiler) : convention := match c with MSVC | ClangCl => Windows | _ => SystemV end.

Definition first_argument (k : convention) : register := match k with SystemV => RDI | Windows => RCX end.
Definition second_argument (k : convention) : register := match k with SystemV => RSI | Windows => RDX end.

(** Memory a function may overwrite on the stack. *)
Definition scratch (k : convention) (s : state) (x : Z) : Prop :=
  match k with
  | SystemV => (pointer s RSP - 128 <= x < pointer s RSP)%Z
  | Windows => (pointer s RSP + 8 <= x < pointer s RSP + 40)%Z
  end.

(** Registers hold eight bytes, memory holds bytes, and the stack does not end at the edge of the address space. *)
Definition machine (s : state) : Prop :=
  (forall r, sized 8 (regs s r)) /\ (forall x, mem s x < 256) /\
  (128 <= pointer s RSP)%Z /\ (pointer s RSP + 40 <= 2 ^ 64)%Z.

Definition inside (a : Z) (n : nat) (x : Z) : Prop := (a <= x < a + Z.of_nat n)%Z.

(** An object of n bytes at address a, outside the scratch memory. *)
Definition placed (k : convention) (s : state) (a : Z) (n : nat) : Prop :=
  (0 <= a)%Z /\ (a + Z.of_nat n <= 2 ^ 64)%Z /\ forall x, inside a n x -> ~ scratch k s x.

(** The stack pointer and all memory outside the scratch memory and the given set are as before. *)
Definition keeps (k : convention) (s s' : state) (except : Z -> Prop) : Prop :=
  regs s' RSP = regs s RSP /\ forall x, ~ scratch k s x -> ~ except x -> mem s' x = mem s x.

Inductive contract : Type :=
| Changes (t : ty) (f : bytes -> res bytes)   (* void (option<t>* a), a member function called on it *)
| Assigns (t : ty)                            (* void (option<t>* a, option<t>* b), copy assignment *)
| Makes (t : ty) (f : bytes -> res bytes)     (* option<t> (), a constructor *)
| Tells (t : ty) (f : bytes -> res bool).     (* bool (option<t>* a) *)

Definition in_registers (k : convention) (n : nat) : bool :=
  match k with
  | SystemV => Nat.leb n 16
  | Windows => false
  end.

Definition meets (k : convention) (c : contract) (code : list instr) : Prop :=
  forall s, machine s ->
  match c with
  | Changes t f =>
      let n := sizeof (TOption t) in
      let a := pointer s (first_argument k) in
      placed k s a n ->
      exists s', run code s = Some s' /\ f (load (mem s) a n) = Ok (load (mem s') a n) /\ keeps k s s' (inside a n)
  | Assigns t =>
      (* the bytes need not be the same: padding may or may not be copied *)
      let n := sizeof (TOption t) in
      let a := pointer s (first_argument k) in
      let b := pointer s (second_argument k) in
      placed k s a n -> placed k s b n -> (a = b \/ forall x, inside a n x -> ~ inside b n x) ->
      valid (TOption t) (load (mem s) a n) -> valid (TOption t) (load (mem s) b n) ->
      exists s' r, run code s = Some s' /\ opt_assign true t (load (mem s) b n) (load (mem s) a n) = Ok r /\
        valid (TOption t) (load (mem s') a n) /\ decode (TOption t) (load (mem s') a n) = decode (TOption t) r /\
        keeps k s s' (inside a n)
  | Makes t f =>
      let n := sizeof (TOption t) in
      if in_registers k n then
        exists s' before, run code s = Some s' /\ sized n before /\
          f before = Ok (slice 0 n (regs s' RAX ++ regs s' RDX)) /\ keeps k s s' (fun _ => False)
      else
        let a := pointer s (first_argument k) in
        placed k s a n ->
        exists s', run code s = Some s' /\ f (load (mem s) a n) = Ok (load (mem s') a n) /\
          regs s' RAX = regs s (first_argument k) /\ keeps k s s' (inside a n)
  | Tells t f =>
      let n := sizeof (TOption t) in
      let a := pointer s (first_argument k) in
      placed k s a n ->
      exists s' h, run code s = Some s' /\ f (load (mem s) a n) = Ok h /\
        slice 0 1 (regs s' RAX) = [if h then 1 else 0] /\ keeps k s s' (fun _ => False)
  end.

(** * The functions of sample.cpp that use opt::option *)

Inductive fn : Type :=
| IntAssign | IntAssignOption | IntReturn | FloatAssign | FloatReturn | DoubleReturn | EnumReturn | FloatReset
| FloatEmplace | BoolReset | IntDefault | IntNone | Int64None | Ints1024None | Floats1024None | BoolNone | FloatNone
| DoubleNone | BoolHas | FloatHas | DoubleHas | NestedHas | NestedBoth.

Definition int_t : ty := TOpaque 4 4.
Definition int64_t : ty := TOpaque 8 8.
Definition float_t : ty := TFloat32 false.
Definition double_t : ty := TFloat64 false.
Definition enum_t : ty := TEnumRefl 2 [2].     (* enum class enum_uint16 : std::uint16_t { a = 2 } *)

(** 2, 1.f, 1. and enum_uint16::a. *)
Definition two : bytes := le_encode 4 2.
Definition one_f : bytes := le_encode 4 0x3f800000.
Definition one_d : bytes := le_encode 8 0x3ff0000000000000.
Definition enum_a : bytes := le_encode 2 2.

(** sample.cpp, the bodies. *)
Definition contract_of (f : fn) : contract :=
  match f with
  | IntAssign => Changes int_t (opt_assign_value true int_t two)                  (* 15: a is assigned 2 *)
  | IntAssignOption => Assigns int_t                                              (* 44 *)
  | IntReturn => Makes int_t (opt_construct int_t two)                            (* 71: return 2 *)
  | FloatAssign => Changes float_t (opt_assign_value true float_t one_f)          (* 82 *)
  | FloatReturn => Makes float_t (opt_construct float_t one_f)                    (* 132 *)
  | DoubleReturn => Makes double_t (opt_construct double_t one_d)                 (* 176 *)
  | EnumReturn => Makes enum_t (opt_construct enum_t enum_a)                      (* 244 *)
  | FloatReset => Changes float_t (opt_reset true float_t)                        (* 288 *)
  | FloatEmplace => Changes float_t (opt_emplace true float_t one_f)              (* 317 *)
  | BoolReset => Changes TBool (opt_reset true TBool)                             (* 350 *)
  | IntDefault => Makes int_t (opt_default int_t)                                 (* 391: return {} *)
  | IntNone => Makes int_t (opt_default int_t)                                    (* 414: return opt::none *)
  | Int64None => Makes int64_t (opt_default int64_t)                              (* 495 *)
  | Ints1024None => Makes (TArray 1024 int_t) (opt_default (TArray 1024 int_t))   (* 518 *)
  | Floats1024None => Makes (TArray 1024 float_t) (opt_default (TArray 1024 float_t))  (* 570 *)
  | BoolNone => Makes TBool (opt_default TBool)                                   (* 591 *)
  | FloatNone => Makes float_t (opt_default float_t)                              (* 630 *)
  | DoubleNone => Makes double_t (opt_default double_t)                           (* 671 *)
  | BoolHas => Tells TBool (opt_has_value TBool)                                  (* 712 *)
  | FloatHas => Tells float_t (opt_has_value float_t)                             (* 746 *)
  | DoubleHas => Tells double_t (opt_has_value double_t)                          (* 783 *)
  | NestedHas => Tells (TOption TBool) (opt_has_value (TOption TBool))            (* 819 *)
  | NestedBoth =>                                                                 (* 881: has_value() of both *)
      Tells (TOption TBool) (fun b =>
        let* h := opt_has_value (TOption TBool) b in
        if h then let* v := opt_get (TOption TBool) b in opt_has_value TBool v else Ok false)
  end.

Definition names : list (text * fn) :=
  map (fun '(n, f) => (txt n, f))
  [("option_int_assign", IntAssign); ("option_int_assign_option", IntAssignOption); ("option_int_return", IntReturn);
   ("option_float_assign", FloatAssign); ("option_float_return", FloatReturn); ("option_double_return", DoubleReturn);
   ("option_enum_uint16_return", EnumReturn); ("option_float_reset", FloatReset); ("option_float_emplace", FloatEmplace);
   ("option_bool_reset", BoolReset); ("option_int_return_default_ctor", IntDefault); ("option_int_return_none", IntNone);
   ("option_int64_return_none", Int64None); ("option_int_1024_return_none", Ints1024None);
   ("option_float_1024_return_none", Floats1024None); ("option_bool_return_none", BoolNone);
   ("option_float_return_none", FloatNone); ("option_double_return_none", DoubleNone); ("option_bool_has_value", BoolHas);
   ("option_float_has_value", FloatHas); ("option_double_has_value", DoubleHas);
   ("option_option_bool_has_value", NestedHas); ("option_option_bool_nested_has_value", NestedBoth)]%string.
