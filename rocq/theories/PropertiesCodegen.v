(** Properties C65-C66: the listings of generated code and the script that checks them. *)
From Coq Require Import ZArith NArith Bool List Ascii String.
From Verif Require Import Outcome Words Types OptBytes TypesSpec PyText Codegen CodegenSample CodegenSpec CodegenFacts Asm AsmSpec AsmFacts
  AsmListings.
Import ListNotations.
Open Scope N_scope.
#[local] Opaque sections functions names sample_cpp.

(** * C65: the expected code implements the operations of the option *)

(** For every compiler, every version and every machine state: the listing the script selects for a function of
    sample.cpp that uses opt::option is code that does to memory and registers what the operation does to the
    bytes of the option. *)
Theorem C65_listings : forall c t v n f, compiler_version t = Some v -> In (n, f) names ->
  exists s code, In s sections /\ name s = n /\ selected (words c) v sections s = Some true /\
    assemble (map snd (body s)) = Some code /\ meets (convention_of c) (contract_of f) code.
Proof. intros c t v n f E. exact (each_listing c v n f (compiler_version_long t v E)). Qed.
Print Assumptions C65_listings.

(** All functions whose name begins with option_ are among them. *)
Theorem C65_all_functions : forall s r, In s sections -> after_prefix (txt "option_") (name s) = Some r ->
  exists f, In (name s, f) names.
Proof. exact option_names. Qed.
Print Assumptions C65_all_functions.

(** Code that passes the test is right: whatever disassembly the script accepts, for every function of sample.cpp
    that uses opt::option the disassembled code does what the operation does. *)
Theorem C65_passing_code : forall c t v d n, compiler_version t = Some v -> check (words c) v sections d = Some (n, true) ->
  forall g f, In (g, f) names ->
  exists l code, listing_of g d = Some l /\ assemble l = Some code /\ meets (convention_of c) (contract_of f) code.
Proof. intros c t v d n E. exact (passing_run c v d n (compiler_version_long t v E)). Qed.
Print Assumptions C65_passing_code.

(** A state: all registers 2000, except for the stack pointer; memory full of 7. *)
Definition sample_state : state :=
  mkstate (fun r => le_encode 8 (match r with RSP => 100000 | RSI => 3000 | _ => 2000 end)) (fun _ => 7) false true.
Lemma sample_state_ok : machine sample_state /\ (forall k, placed k sample_state 2000 8 /\ placed k sample_state 3000 8).
Proof.
  assert (R : pointer sample_state RSP = 100000%Z) by (vm_compute; reflexivity). split.
  - split; [intros r; destruct r; (split; [reflexivity|repeat constructor])|]. split; [intros x; reflexivity|].
    rewrite R. split; vm_compute; discriminate.
  - intros k. unfold placed, inside, scratch. rewrite R.
    assert (H : forall a, (a = 2000 \/ a = 3000)%Z -> (0 <= a)%Z /\ (a + Z.of_nat 8 <= 2 ^ 64)%Z /\
      forall x, (a <= x < a + Z.of_nat 8)%Z -> ~ match k with SystemV => (100000 - 128 <= x < 100000)%Z | Windows => (100000 + 8 <= x < 100000 + 40)%Z end).
    { intros a Ha. repeat split; [destruct Ha as [-> | ->]; vm_compute; discriminate..|].
      intros x Hx. change (Z.of_nat 8) with 8%Z in Hx. destruct k; destruct Ha as [-> | ->]; intros [L U];
        destruct Hx as [Lx Ux]; apply (Z.lt_irrefl x); eapply Z.lt_le_trans; try exact Ux; eapply Z.le_trans; try exact L;
        vm_compute; discriminate. }
    split; apply H; [left|right]; reflexivity.
Qed.

Example C65_ex :
  option_map (fun s => load (mem s) 2000 8)
    (run [Mov (Mem 4 RDI 0) (Imm 2); Mov (Mem 1 RDI 4) (Imm 1); Ret] sample_state) = Some [2; 0; 0; 0; 1; 7; 7; 7] /\
  assemble (map txt ["mov dword ptr [rdi], 0x2"; "mov byte ptr [rdi + 0x4], 0x1"; "ret"]%string) =
    Some [Mov (Mem 4 RDI 0) (Imm 2); Mov (Mem 1 RDI 4) (Imm 1); Ret] /\
  contract_of IntAssign = Changes int_t (opt_assign_value true int_t two) /\
  In (txt "option_int_assign", IntAssign) names.
Proof. repeat split; try (vm_compute; reflexivity). left. reflexivity. Qed.

(** Code that leaves out the flag does not meet the contract. *)
Example C65_wrong_code : ~ meets SystemV (contract_of IntAssign) [Mov (Mem 4 RDI 0) (Imm 2); Ret].
Proof.
  intros H. destruct sample_state_ok as (M & P). specialize (H sample_state M (proj1 (P SystemV))).
  destruct H as (s' & R & E & _). cbv in R. injection R as <-. vm_compute in E. discriminate.
Qed.

(** * C66: the script holds every compiler to one listing for each function *)

Theorem C66_one_listing : forall c t v f, compiler_version t = Some v -> In f functions ->
  exists s, In s sections /\ name s = f /\ selected (words c) v sections s = Some true /\
    forall s', In s' sections -> name s' = f -> s' <> s -> selected (words c) v sections s' = Some false.
Proof. intros c t v f E. exact (one_listing c v f (compiler_version_long t v E)). Qed.
Print Assumptions C66_one_listing.

(** No condition of sample.cpp raises an exception, and a run that ends has checked as many listings as there are
    functions. *)
Theorem C66_sample_readable : forall c t v, compiler_version t = Some v -> readable (words c) v sections.
Proof. intros c t v E. exact (sample_readable c v (compiler_version_long t v E)). Qed.
Print Assumptions C66_sample_readable.
Theorem C66_sample_count : forall c t v d n ok, compiler_version t = Some v -> check (words c) v sections d = Some (n, ok) ->
  n = List.length functions.
Proof. intros c t v d n ok E. exact (sample_count c v d n ok (compiler_version_long t v E)). Qed.
Print Assumptions C66_sample_count.

(** For any expected listings: the script looks at those that apply, and succeeds if and only if each of them is
    switched off or equal to the disassembly. *)
Theorem C66_selected : forall ids v ss s, readable ids v ss -> In s ss ->
  exists b, selected ids v ss s = Some b /\ (b = true <-> applies ids v ss s).
Proof. exact selected_spec. Qed.
Print Assumptions C66_selected.
Theorem C66_check : forall ids v ss d, readable ids v ss -> (forall s, In s ss -> listing_of (name s) d <> None) ->
  exists n ok, check ids v ss d = Some (n, ok) /\
    (ok = true <-> forall s, In s ss -> applies ids v ss s -> disabled s = true \/ listing_of (name s) d = Some (map snd (body s))).
Proof. exact check_spec. Qed.
Print Assumptions C66_check.

(** The language of conditions.  A condition holds if one of its alternatives does: all its words are known and
    the version fits. *)
Theorem C66_alternatives : forall ids v l,
  (forall c, In c l -> check_version v (snd (find_condition_version (strip c))) <> None) ->
  exists b, match_any ids v l = Some b /\
    (b = true <-> exists c, In c l /\ (forall w, In w (split "&" (fst (find_condition_version (strip c)))) -> In (strip w) ids) /\
       check_version v (snd (find_condition_version (strip c))) = Some true).
Proof. exact alternatives. Qed.
Print Assumptions C66_alternatives.
Theorem C66_strict : forall v s b, compiler_version s = Some b -> (forall r, s <> "="%char :: r) ->
  (check_version v ("<"%char :: s) = Some true <-> before v b) /\ (check_version v (">"%char :: s) = Some true <-> before b v).
Proof. exact below. Qed.
Print Assumptions C66_strict.
Theorem C66_or_equal : forall v s b, compiler_version s = Some b ->
  (check_version v ("<"%char :: "="%char :: s) = Some true <-> v = b \/ before v b) /\
  (check_version v (">"%char :: "="%char :: s) = Some true <-> b = v \/ before b v).
Proof. exact at_most. Qed.
Print Assumptions C66_or_equal.
Theorem C66_prefix : forall v s w, incomplete_version s = Some w -> (forall c r, s = c :: r -> is_digit c = true) -> range_from s = None ->
  (check_version v s = Some true <-> exists rest, v = w ++ rest).
Proof. exact begins. Qed.
Print Assumptions C66_prefix.
Theorem C66_range : forall v s a b, range_from s = Some (a, b) ->
  forall va vb, compiler_version a = Some va -> compiler_version b = Some vb ->
  (check_version v s = Some true <-> (va = v \/ before va v) /\ before v vb).
Proof. exact ranges. Qed.
Print Assumptions C66_range.

Example C66_ex :
  compiler_version (txt "13.2") = Some [13; 2; 0; 0] /\
  check_version [13; 2; 0; 0] (txt "13") = Some true /\ check_version [13; 2; 0; 0] (txt "<13.2") = Some false /\
  check_version [13; 2; 0; 0] (txt ">=13.2") = Some true /\ check_version [13; 2; 0; 0] (txt "10..<14") = Some true /\
  check_version [13; 2; 0; 0] (txt "x") = None /\
  find_condition_version (txt "clang & libcpp <12") = (txt "clang & libcpp", txt "<12") /\
  match_condition (words Gcc) [13; 2; 0; 0] (txt "clang,gcc 13") = Some true /\
  match_condition (words Gcc) [13; 2; 0; 0] (txt "gcc & old-libstdcpp") = Some false /\
  range_from (txt "10..<14") = Some (txt "10", txt "14") /\ range_from (txt "10..14") = Some (txt "10", txt "14") /\
  range_from (txt "13.2") = None.
Proof. repeat split; vm_compute; reflexivity. Qed.
(** The end is left out of both kinds of range: 10..14 does not hold version 14. *)
Example C66_range_end : check_version [14; 0; 0; 0] (txt "10..14") = Some false.
Proof. vm_compute. reflexivity. Qed.

(** Three sections for one function: the general one applies where neither condition does. *)
Definition small : list section :=
  match parse_expected (map txt ["//$ @f:"; "//$ ret"; "//$ @f {gcc <10}:"; "//$ nop"; "//$ ret"; "//$ @f {MSVC}:"; "//$ [disable]"; "void f() {}"]%string) with
  | Some l => l | None => []
  end.
Example C66_check_ex :
  List.length small = 3%nat /\ check (words Gcc) [9; 1; 0; 0] small [(txt "f", map txt ["nop"; "ret"]%string)] = Some (1%nat, true) /\
  check (words Gcc) [10; 1; 0; 0] small [(txt "f", map txt ["nop"; "ret"]%string)] = Some (1%nat, false) /\
  check (words MSVC) [19; 0; 0; 0] small [(txt "f", map txt ["int3"]%string)] = Some (1%nat, true) /\
  check (words Gcc) [9; 1; 0; 0] small [] = None.
Proof. repeat split; vm_compute; reflexivity. Qed.
Example C66_functions_ex : In (txt "option_int_assign") functions.
Proof. exact (named_function _ IntAssign (proj2 (proj2 (proj2 C65_ex)))). Qed.
Example C66_counts : (List.length sections, List.length functions) = (143, 39)%nat.
Proof. vm_compute. reflexivity. Qed.

(** A disassembly that passes: for every function the listing selected for gcc 13.2. *)
Definition good : disassembly :=
  map (fun s => (name s, map snd (body s)))
    (filter (fun s => match selected (words Gcc) [13; 2; 0; 0] sections s with Some true => true | _ => false end) sections).
Example C65_passing_ex : check (words Gcc) [13; 2; 0; 0] sections good = Some (39%nat, true).
Proof. vm_compute. reflexivity. Qed.
