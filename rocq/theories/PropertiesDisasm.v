(** C68: the parser of the disassembly in the code generation test. *)
From Coq Require Import ZArith NArith Bool List Ascii String.
From Verif Require Import PyText Examples Codegen CodegenSample CodegenSpec CodegenFacts ExamplesSpec Asm AsmSpec AsmFacts Disasm DisasmSpec DisasmFacts.
From Verif Require Import PropertiesCodegen.
Import ListNotations.
Open Scope N_scope.
Open Scope list_scope.

(** The table has, for every name, the instructions stated under the last heading with this name. *)
Theorem C68_table : forall raw lines, printed raw lines -> forall g l,
  listing_of g (parse_disassembly raw) = Some l <-> lists lines g l.
Proof. exact parse_disassembly_lists. Qed.
Print Assumptions C68_table.

(** The instruction of a line: white space is made uniform, a comment is dropped, numbers are rewritten. *)
Theorem C68_line : forall line i, instruction line = Some i <-> states line i.
Proof. exact instruction_states. Qed.
Print Assumptions C68_line.

(** The name found on a line is what the pattern prefers. *)
Theorem C68_heading : forall line n, function_name line = Some n <-> heading line n.
Proof. exact function_name_heading. Qed.
Print Assumptions C68_heading.

(** It is the name of the function if no parenthesis follows among the parameters before white space. *)
Theorem C68_name : forall ret n args, (ret = [] \/ exists r c, ret = r ++ [c] /\ is_space c = true) ->
  ~ In "("%char ret -> n <> [] -> (forall c, In c n -> is_space c = false) ->
  (forall a b, args = a ++ "("%char :: b -> exists c, In c a /\ is_space c = true) -> occurs (txt ")>") args ->
  heading ("<"%char :: ret ++ n ++ "("%char :: args) n.
Proof. exact heading_usual. Qed.
Print Assumptions C68_name.

(** All decimal numbers are rewritten if no two of them are separated by a single sign. *)
Theorem C68_numbers : forall ts us, hexed ts us -> lone ts -> all_hexed ts us.
Proof. exact hexed_lone. Qed.
Print Assumptions C68_numbers.

(** The rewritten number is the same number. *)
Theorem C68_value : forall n h, in_hex n h -> hex h = Some (Z.of_N n).
Proof. exact in_hex_value. Qed.
Print Assumptions C68_value.

(** Code that passes the test is right, from the text of the disassembly on: for every function of sample.cpp that uses
    opt::option, the instructions stated under the last heading with its name do what the operation does. *)
Theorem C68_passing : forall c t v raw lines n, compiler_version t = Some v -> printed raw lines ->
  check (words c) v sections (parse_disassembly raw) = Some (n, true) ->
  forall g f, In (g, f) names ->
  exists l code, lists lines g l /\ assemble l = Some code /\ meets (convention_of c) (contract_of f) code.
Proof.
  intros c t v raw lines n V P C g f I.
  destruct (C65_passing_code c t v (parse_disassembly raw) n V C g f I) as [l [code [L H]]].
  exists l, code. split; [exact (proj1 (C68_table raw lines P g l) L)|exact H].
Qed.
Print Assumptions C68_passing.

(** * Cases *)

Definition tab : string := String (ascii_of_N 9) EmptyString.
Definition eol : text := [newline].
Definition raw_of (ls : list text) : text := flat_map (fun l => l ++ eol) ls.

Definition sample_raw : text := raw_of (map txt
  [""; "sample: file format elf64-x86-64"; ""; "Disassembly of section .text:"; "";
   "<void f<int>(int, char (*)(int))>:"; tab ++ "endbr64"; tab ++ "mov" ++ tab ++ "eax, dword ptr [rdi + 16]  # 0x10 <x>";
   tab ++ "je" ++ tab ++ "<L0>"; tab ++ "add" ++ tab ++ "eax, 10"; "<L0>:"; tab ++ "ret"; tab ++ "nop"; "";
   "<g()>:"; tab ++ "xor" ++ tab ++ "eax, eax"; tab ++ "ret"; "Disassembly of section .fini:"; "<g()>:"; tab ++ "ret"])%string.
Example C68_table_ex :
  listing_of (txt "f<int>") (parse_disassembly sample_raw) =
    Some (map txt ["mov eax, dword ptr [rdi + 0x10]"; "je <L0>"; "add eax, 0xa"; "<L0>:"; "ret"]%string) /\
  listing_of (txt "g") (parse_disassembly sample_raw) = Some [txt "ret"] /\
  listing_of (txt "main") (parse_disassembly sample_raw) = None.
Proof. vm_compute. auto. Qed.
Example C68_line_ex : states (txt (tab ++ "mov " ++ tab ++ " rax, -1")%string) (txt "mov rax, -0x1").
Proof. apply C68_line. vm_compute. reflexivity. Qed.
Example C68_name_ex : heading (txt "<void f<int>(int, char (*)(int))>:") (txt "f<int>").
Proof.
  apply (C68_name (txt "void ") (txt "f<int>") (txt "int, char (*)(int))>:")).
  - right. exists (txt "void"), " "%char. auto.
  - intros H. repeat (destruct H as [H|H]; [discriminate H|]). exact H.
  - discriminate.
  - intros c H. repeat (destruct H as [<-|H]; [reflexivity|]). destruct H.
  - intros a b E. destruct a as [|x1 [|x2 [|x3 [|x4 [|x5 a]]]]]; try discriminate E.
    exists x5. split; [right; right; right; right; left; reflexivity|].
    apply (f_equal (fun l => nth 4 l "0"%char)) in E. cbn in E. subst x5. reflexivity.
  - exists (txt "int, char (*)(int)"), (txt ":"). reflexivity.
Qed.
Example C68_numbers_ex : lone [Word (txt "add"); Sign " "; Word (txt "eax"); Sign ","; Sign " "; Word (txt "10")].
Proof.
  intros a w c x b E D. repeat (destruct a as [|? a]; [injection E; intros; subst; intros Q; try discriminate;
    first [discriminate (proj1 (decimal_digits _) D) | discriminate (proj1 (decimal_digits _) Q)]|
    apply (f_equal (@tl token)) in E; cbn [tl app] in E]). destruct a; discriminate.
Qed.

(** Not so if a parameter is a function type: the name then includes the parenthesis. *)
Theorem C68_name_refuted : exists n args, n = txt "f" /\ args = txt "std::function<int(int)>)>:" /\
  ~ heading ("<"%char :: n ++ "("%char :: args) n /\ heading ("<"%char :: n ++ "("%char :: args) (txt "f(std::function<int").
Proof.
  exists (txt "f"), (txt "std::function<int(int)>)>:"). split; [reflexivity|]. split; [reflexivity|].
  assert (H : heading (txt "<f(std::function<int(int)>)>:") (txt "f(std::function<int")) by (apply C68_heading; vm_compute; reflexivity).
  split; [|exact H]. intros H'. discriminate (heading_unique _ _ _ H H').
Qed.
Print Assumptions C68_name_refuted.

(** A number after another one and a comma is not rewritten. *)
Theorem C68_numbers_refuted : exists line i, states line i /\ line = txt "enter 16,32" /\ i = txt "enter 0x10,32".
Proof.
  exists (txt "enter 16,32"), (txt "enter 0x10,32"). split; [|auto]. apply C68_line. vm_compute. reflexivity.
Qed.
Print Assumptions C68_numbers_refuted.

(** The listings of the test as a text to parse; and with a call in the first function. *)
Definition good_raw (extra : list text) : text :=
  raw_of (flat_map (fun p => (txt "<" ++ fst p ++ txt "(int)>:") :: extra ++ snd p) good).
Example C68_passing_ex : check (words Gcc) [13; 2; 0; 0] sections (parse_disassembly (good_raw [])) = Some (39%nat, true).
Proof. vm_compute. reflexivity. Qed.

(** A line that mentions "nop" is left out although it is a call: the test passes whatever is called. *)
Theorem C68_calls_refuted : exists raw lines, printed raw lines /\
  check (words Gcc) [13; 2; 0; 0] sections (parse_disassembly raw) = Some (39%nat, true) /\
  forall g f, In (g, f) names -> exists before h rest, lines = before ++ h :: txt "call <canopy>" :: rest /\ heading h g.
Proof.
  exists (good_raw [txt "call <canopy>"]), (splitlines (good_raw [txt "call <canopy>"])).
  exact (conj (ExamplesFacts.splitlines_printed _) (conj (eq_refl (Some (39%nat, true)) <: check (words Gcc) [13; 2; 0; 0] sections
    (parse_disassembly (good_raw [txt "call <canopy>"])) = Some (39%nat, true)) (fun g f => followed_names (txt "call <canopy>") _ names
    (eq_refl true <: forallb (fun p => followed (fst p) (txt "call <canopy>") (splitlines (good_raw [txt "call <canopy>"]))) names = true) g f))).
Qed.
Print Assumptions C68_calls_refuted.
