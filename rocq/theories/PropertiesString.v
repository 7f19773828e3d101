(** Properties of options of std::basic_string against the layouts of the standard libraries.  Statements only: each theorem is
    closed by [exact], with its assumptions printed, and each is followed by an example that meets its hypotheses. *)
From Coq Require Import NArith List Bool.
From Verif Require Import Outcome Words Types OptBytes TypesSpec TraitFacts FindingsFacts StringSpec StringFacts.
Import ListNotations.
Open Scope N_scope.

(** C88: every string that a standard library makes is seen as a held value: get_level answers that it is no unused
    state, for all contents, short or long, and all sizes of elements up to 8 bytes. *)
Theorem C88_held : forall p e lib b, wf_p p -> 0 < e -> ((exists d, lib = STL d) -> e <= 8) -> string_object p e lib b ->
  get_level (TString p lib) b = Ok (umax_base - 1) /\ valid (TString p lib) b /\ ~ reserved (TString p lib) b.
Proof. exact strings_held. Qed.
Print Assumptions C88_held.
(** An empty string of each library; for libc++ also a long one. *)
Example C88_held_ex :
  string_object 8 1 (STL false) (repeat 0 24 ++ le_encode 8 15) /\
  string_object 8 1 (STL true) (le_encode 8 0x1E0A2B40 ++ repeat 0 24 ++ le_encode 8 15) /\
  string_object 8 1 (LibCpp false) (repeat 0 24) /\ string_object 8 1 (LibCpp true) (repeat 0 24) /\
  string_object 8 1 (LibCpp false) (le_encode 8 33 ++ le_encode 8 20 ++ le_encode 8 0x55500010) /\
  string_object 8 1 (LibCpp true) (le_encode 8 0x55500010 ++ le_encode 8 20 ++ le_encode 8 (wbase 8 / 2 + 16)) /\
  string_object 8 1 LibStdCpp (le_encode 8 0x7FFE00001010 ++ repeat 0 24).
Proof.
  split; [|split; [|split; [|split; [|split; [|split]]]]].
  - apply stl_string; [apply bytes_ok_sized; vm_compute; reflexivity|vm_compute; discriminate|vm_compute; discriminate].
  - apply stl_string; [apply bytes_ok_sized; vm_compute; reflexivity|vm_compute; discriminate|vm_compute; discriminate].
  - apply short_string with (size := 0); [apply bytes_ok_sized; vm_compute; reflexivity|vm_compute; reflexivity].
  - apply short_string_alt; [apply bytes_ok_sized; vm_compute; reflexivity|vm_compute; reflexivity].
  - apply long_string with (cap := 16); [apply bytes_ok_sized; vm_compute; reflexivity|reflexivity|vm_compute; reflexivity].
  - apply long_string_alt with (cap := 16); [apply bytes_ok_sized; vm_compute; reflexivity|reflexivity|vm_compute; reflexivity].
  - apply gnu_string; [apply bytes_ok_sized; vm_compute; reflexivity|vm_compute; discriminate].
Qed.

(** The words of an unused state are those of no string, whatever the level. *)
Theorem C88_unused : forall p e lib l b b', wf_p p -> 0 < e -> ((exists d, lib = STL d) -> e <= 8) ->
  l < max_level (TString p lib) -> sized (sizeof (TString p lib)) b -> set_level (TString p lib) l b = Ok b' ->
  unused_string p lib b' /\ size_word p lib b' = l /\ ~ string_object p e lib b'.
Proof. exact unused_no_string. Qed.
Print Assumptions C88_unused.
Example C88_unused_ex : set_level (TString 8 (LibCpp true)) 3 (repeat 0 24) =
  Ok (repeat 0 8 ++ le_encode 8 3 ++ le_encode 8 (wbase 8 / 2)).
Proof. vm_compute. reflexivity. Qed.

(** Elements of any size: in the STL of Microsoft a string of larger elements may have capacity 0, and then an option that holds
    it looks empty. *)
Theorem C88_exact : forall p e lib b, wf_p p -> string_object p e lib b ->
  (reserved (TString p lib) b <-> exists d, lib = STL d /\ capacity_word p lib b = 0) /\
  (reserved (TString p lib) b -> get_level (TString p lib) b = Ok 0).
Proof. exact strings_large. Qed.
Print Assumptions C88_exact.
Theorem C88_large_elements_refuted : exists b,
  string_object 8 16 (STL false) b /\ get_level (TString 8 (STL false)) b = Ok 0 /\
  opt_has_value (TString 8 (STL false)) b = Ok false.
Proof. exact large_elements_empty. Qed.
Print Assumptions C88_large_elements_refuted.

(** docs/builtin_traits.md 18 says that capacity() is 0 in an unused state.  With libstdc++ it stays what it was. *)
Theorem C88_gnu_capacity : forall p l b b', wf_p p -> sized (p + p + 16) b -> l < 255 ->
  set_level (TString p LibStdCpp) l b = Ok b' -> capacity_word p LibStdCpp b' = capacity_word p LibStdCpp b.
Proof. exact gnu_capacity_kept. Qed.
Print Assumptions C88_gnu_capacity.
Theorem C88_gnu_capacity_refuted : exists b b',
  string_object 8 1 LibStdCpp b /\ set_level (TString 8 LibStdCpp) 0 b = Ok b' /\ capacity_word 8 LibStdCpp b' = 100.
Proof. exact gnu_capacity_long. Qed.
Print Assumptions C88_gnu_capacity_refuted.
