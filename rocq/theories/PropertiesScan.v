(** Properties of the scan of the printed enumerators (C48), each with a concrete case. *)
From Coq Require Import NArith Bool List Ascii String Lia.
From Verif Require Import Outcome Types EnumScan EnumFacts EnumScanFacts.
Import ListNotations.
Open Scope N_scope.

(** C48: for every compiler, every type whose name has none of the characters the scan looks for, every
    set of enumerators and every surrounding text, the scan finds the bound that the list of named
    values gives, without reading outside the text. *)
Theorem C48_scan : forall d type_name number name_of,
  numbers number -> names d name_of -> plain_type type_name ->
  forall before behind max named,
  (1 <= max <= 1024)%nat -> lacks (opening d) before -> d = Gcc \/ lacks "," behind ->
  named_below name_of max named ->
  scan d (N.of_nat max) (render d type_name number name_of before behind max) = Ok (max_enum_value named max).
Proof. exact scan_ok. Qed.
Print Assumptions C48_scan.

(** C48: whatever the type is called, short of a comma that leads to a parenthesis, no named enumerator
    is given away as a level. *)
Theorem C48_safe : forall d type_name number name_of,
  numbers number -> names d name_of -> misleads d type_name = false ->
  forall before behind max,
  (1 <= max <= 1024)%nat -> lacks (opening d) before -> d = Gcc \/ lacks "," behind ->
  exists r, scan d (N.of_nat max) (render d type_name number name_of before behind max) = Ok r /\
    (r = 0 \/ forall v, v < N.of_nat max -> name_of v <> None -> v < r).
Proof. exact scan_safe. Qed.
Print Assumptions C48_safe.

(** With such a comma one is: S<int, (Color)3>::F::a has a value that the scan takes for unused. *)
Theorem C48_misled_refuted : exists d type_name number name_of before behind max r v,
  names d name_of /\ scan d (N.of_nat max) (render d type_name number name_of before behind max) = Ok r /\
  name_of v <> None /\ 0 < r /\ r <= v /\ v < N.of_nat max.
Proof.
  exists Gcc, (txt "S<int, (Color)3>::F"), decimal, (one_name 191 "S<int, (Color)3>::F::a"),
    (txt "f(uintmax_t) [with auto ...Enumerators = "), (txt "; uintmax_t = long unsigned int]"), 256%nat, 128, 191.
  split; [|split; [exact (proj1 scan_misled)|]].
  - intros k n. unfold one_name. destruct (k =? 191); [|discriminate]. intros [= <-]. split; [discriminate|reflexivity].
  - split; [discriminate|]. split; [reflexivity|]. split; [discriminate|reflexivity].
Qed.
Print Assumptions C48_misled_refuted.

(** The digits of the numbers below 1000 are as required. *)
Definition small_decimal (k : N) : text := decimal (k mod 1000).
Lemma small_decimal_numbers : numbers small_decimal.
Proof.
  intros k.
  assert (S : forallb (fun n =>
    let s := decimal (N.of_nat n) in
    is_digit (EnumScan.head s) && negb (Nat.eqb (List.length s) 0) &&
    forallb (fun c => negb (existsb (is c) s)) [","; "}"; ")"; ":"; "("]%char) (seq 0 1000) = true)
    by (vm_compute; reflexivity).
  rewrite forallb_forall in S. specialize (S (N.to_nat (k mod 1000))).
  assert (Hk : k mod 1000 < 1000) by (apply N.mod_lt; discriminate).
  rewrite in_seq in S. specialize (S ltac:(lia)). rewrite N2Nat.id in S. cbv zeta in S.
  apply andb_prop in S as [S1 S3]. apply andb_prop in S1 as [S1 S2].
  split; [exact S1|]. split.
  - unfold small_decimal. intros E. rewrite E in S2. discriminate.
  - intros c Hc Hin. rewrite forallb_forall in S3. specialize (S3 c Hc).
    apply negb_true_iff in S3. apply not_true_iff_false in S3. apply S3.
    apply existsb_exists. exists c. split; [exact Hin|apply is_refl].
Qed.

(** enum class E : unsigned char { a = 0, b = 5, c = 9 }: every compiler's text gives the bound 16;
    in an anonymous namespace Clang gives up. *)
Definition names_E (k : N) : option text :=
  if k =? 0 then Some (txt "E::a") else if k =? 5 then Some (txt "E::b")
  else if k =? 9 then Some (txt "E::c") else None.
Example C48_ex :
  numbers small_decimal /\ (forall d, names d names_E) /\ plain_type (txt "E") /\
  named_below names_E 256 [0; 5; 9] /\
  (forall d, scan d 256 (render d (txt "E") small_decimal names_E (txt "f() ") (txt "]") 256) = Ok 16) /\
  misleads Clang13 (txt "(anonymous namespace)::E") = false /\
  scan Clang13 256 (render Clang13 (txt "(anonymous namespace)::E") small_decimal names_E (txt "f() ") (txt "]") 256) = Ok 256.
Proof.
  split; [exact small_decimal_numbers|]. split.
  { intros d k n. unfold names_E.
    repeat match goal with |- context [if ?b then _ else _] => destruct b end; intros [= <-];
      destruct d; split; discriminate || reflexivity. }
  split. { intros c Hc [H|[]]. subst c. cbn in Hc. decompose [or] Hc; try discriminate; contradiction. }
  split. { intros j _. unfold names_E. cbn [In].
    destruct (N.eqb_spec j 0); [|destruct (N.eqb_spec j 5); [|destruct (N.eqb_spec j 9)]];
      split; intros H; try discriminate; auto; try contradiction; lia. }
  split; [intros []; vm_compute; reflexivity|]. split; vm_compute; reflexivity.
Qed.
