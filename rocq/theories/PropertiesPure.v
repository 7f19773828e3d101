(** Property C97. *)
From Coq Require Import List Bool Arith.
From Verif Require Import PureCalls PureCallsSpec PureCallsFacts.
Import ListNotations.

(** Memory for the examples: options of numbers, and one container of type map<size_t, T>: the keys it has. *)
Record sample : Type := { opts : list (option nat); keys : list nat; count : nat }.

Definition engaged (m : sample) (o : nat) : bool :=
  match nth_error (opts m) o with Some (Some _) => true | _ => false end.

(** The functions of std::map: operator[] inserts a key that is not there. *)
Definition insert (i : nat) (m : sample) : sample :=
  if existsb (Nat.eqb i) (keys m) then m
  else {| opts := opts m; keys := i :: keys m; count := count m |}.

Definition sample_hooks : hooks sample :=
  {| level := fun o m => (m, engaged m o); content := fun o _ => o; alternative := fun _ _ _ => None;
     size := fun _ m => (m, length (keys m)); index := fun _ i m => (m, i);
     front := fun _ m => (m, 0); back := fun _ m => (m, 0) |}.

Definition map_hooks : hooks sample :=
  {| level := fun o m => (m, engaged m o); content := fun o _ => o; alternative := fun _ _ _ => None;
     size := fun _ m => (m, length (keys m)); index := fun _ i m => (insert i m, i);
     front := fun _ m => (m, 0); back := fun _ m => (m, 0) |}.

(** A get_level that counts its calls. *)
Definition counting_hooks : hooks sample :=
  {| level := fun o m => ({| opts := opts m; keys := keys m; count := S (count m) |}, engaged m o);
     content := fun o _ => o; alternative := fun _ _ _ => None;
     size := fun _ m => (m, length (keys m)); index := fun _ i m => (m, i);
     front := fun _ m => (m, 0); back := fun _ m => (m, 0) |}.

Definition start (m : sample) : state sample := {| regs := fun _ => Null; mem := m; out := [] |}.
Definition one_full : sample := {| opts := [Some 5]; keys := []; count := 0 |}.
Definition one_empty : sample := {| opts := [None]; keys := []; count := 0 |}.
Definition two_keys : sample := {| opts := []; keys := [7; 8]; count := 0 |}.

Lemma sample_reads : level_reads sample_hooks /\ container_reads sample_hooks.
Proof. split; [intros o m; reflexivity|]. intros o m. repeat split. Qed.

(** The functions of options and variants with OPTION_PURE write nothing if the level function writes
    nothing. *)
Theorem C97_silent : forall (M : Type) (c : bool) (h : hooks M) f o m m' a,
  on_option f = true -> level_reads h -> ask c h f o m = Some (m', a) -> m' = m.
Proof. exact @option_silent. Qed.
Print Assumptions C97_silent.

(** at, at_front and at_back: if the members of the container they call write nothing. *)
Theorem C97_silent_container : forall (M : Type) (c : bool) (h : hooks M) f o m m' a,
  on_option f = false -> container_reads h -> ask c h f o m = Some (m', a) -> m' = m.
Proof. exact @container_silent. Qed.
Print Assumptions C97_silent_container.

Example C97_silent_ex :
  ask true sample_hooks PtrOrNull 0 one_full = Some (one_full, Address 0) /\
  ask true sample_hooks Get 0 one_empty = None /\
  ask true sample_hooks (None_ Ge Right) 0 one_empty = Some (one_empty, Bool true) /\
  ask true sample_hooks (None_ Lt Left) 0 one_full = Some (one_full, Bool true) /\
  ask true sample_hooks (At 1) 0 two_keys = Some (two_keys, Address 1) /\
  ask true sample_hooks (At 2) 0 two_keys = Some (two_keys, Null).
Proof. repeat split. Qed.

(** The comparisons with none answer in the order in which none is smaller than every value. *)
Theorem C97_none : forall (M : Type) (c : bool) (h : hooks M) r s o m,
  level_reads h ->
  ask c h (None_ r s) o m = Some (m, Bool (in_order r s (snd (level h o m)))).
Proof. exact @none_answers. Qed.
Print Assumptions C97_none.

Example C97_none_ex : in_order Le Right false = true /\ in_order Le Right true = false /\ in_order Lt Left true = true.
Proof. repeat split. Qed.

(** A compiler that drops calls whose result is not used, and takes known results again, in programs of
    any length with branches and loops: a program that finishes finishes with the same memory, the same
    output and the same registers. *)
Theorem C97_optimised : forall (M : Type) (c : bool) (h : hooks M),
  level_reads h -> container_reads h ->
  forall D p q s s' t,
  better D [] p q -> finishes h c p s s' -> alike D s t -> exists t', finishes h c q t t' /\ alike D s' t'.
Proof. exact @better_finishes. Qed.
Print Assumptions C97_optimised.

Definition before : list (stmt sample) :=
  [Ask 0 HasValue 0; If 0 [Ask 1 HasValue 0; Ask 2 Get 0; Emit 1; Ask 3 Get 0] []; Emit 0].
Definition after_ : list (stmt sample) :=
  [Ask 0 HasValue 0; If 0 [Copy 1 0; Emit 1] []; Emit 0].

Example C97_optimised_ex :
  better (fun x => 2 <=? x) [] before after_ /\
  exists s', finishes sample_hooks true before (start one_full) s' /\ out s' = [Bool true; Bool true].
Proof.
  split.
  - unfold before, after_. apply B_keep, B_if; [reflexivity| |apply B_nil|apply B_emit; [reflexivity|apply B_nil]].
    eapply B_reuse; [left; reflexivity|reflexivity|].
    apply B_drop; [reflexivity|]. apply B_emit; [reflexivity|]. apply B_drop; [reflexivity|]. apply B_nil.
  - eexists. split.
    + unfold finishes, before. eapply E_ask; [reflexivity|]. eapply E_if; cbn.
      * eapply E_ask; [reflexivity|]. eapply E_ask; [reflexivity|]. eapply E_emit.
        eapply E_ask; [reflexivity|]. apply E_nil.
      * eapply E_emit. apply E_nil.
    + reflexivity.
Qed.

(** Without dropping calls, a check that fails still fails. *)
Theorem C97_merged_checks : forall (M : Type) (c : bool) (h : hooks M),
  level_reads h -> container_reads h ->
  forall p q s, better (fun _ => false) [] p q -> exec c h p s Failed -> exec c h q s Failed.
Proof. exact @merged_fails. Qed.
Print Assumptions C97_merged_checks.

Example C97_merged_checks_ex :
  better (M := sample) (fun _ => false) [] [Ask 0 HasValue 0; Ask 1 HasValue 0; Ask 2 Get 0]
                                           [Ask 0 HasValue 0; Copy 1 0; Ask 2 Get 0] /\
  exec true sample_hooks [Ask 0 HasValue 0; Ask 1 HasValue 0; Ask 2 Get 0] (start one_empty) Failed.
Proof.
  split.
  - apply B_keep. eapply B_reuse; [left; reflexivity|reflexivity|]. apply B_keep, B_nil.
  - eapply E_ask; [reflexivity|]. eapply E_ask; [reflexivity|]. now apply E_ask_fail.
Qed.

(** A check is lost when the result of get() is not used: the program stopped, the compiled one does not. *)
Theorem C97_check_refuted : exists D p q s,
  level_reads sample_hooks /\ container_reads sample_hooks /\ better D [] p q /\
  exec true sample_hooks p s Failed /\ finishes sample_hooks true q s s.
Proof.
  exists (fun _ => true), [Ask 0 Get 0], [], (start one_empty).
  split; [apply sample_reads|]. split; [apply sample_reads|].
  split; [apply B_drop; [reflexivity|apply B_nil]|].
  split; [now apply E_ask_fail | apply E_nil].
Qed.
Print Assumptions C97_check_refuted.

(** at on a std::map: operator[] inserts, and the compiled program has another map. *)
Theorem C97_at_refuted : exists D p q s s' t',
  level_reads map_hooks /\ better D [] p q /\
  finishes map_hooks true p s s' /\ finishes map_hooks true q s t' /\ keys (mem s') <> keys (mem t').
Proof.
  exists (fun _ => true), [Ask 0 (At 1) 0], [], (start two_keys).
  do 2 eexists. split; [intros o m; reflexivity|].
  split; [apply B_drop; [reflexivity|apply B_nil]|].
  split; [eapply E_ask; [reflexivity|apply E_nil]|]. split; [apply E_nil|]. cbn. discriminate.
Qed.
Print Assumptions C97_at_refuted.

(** A level function that writes, as one that counts its calls. *)
Theorem C97_level_refuted : exists D p q s s' t',
  container_reads counting_hooks /\ better D [] p q /\
  finishes counting_hooks true p s s' /\ finishes counting_hooks true q s t' /\
  count (mem s') <> count (mem t').
Proof.
  exists (fun _ => false), [Ask 0 HasValue 0; Ask 1 HasValue 0], [Ask 0 HasValue 0; Copy 1 0], (start one_full).
  do 2 eexists. split; [intros o m; repeat split|].
  split; [apply B_keep; eapply B_reuse; [left; reflexivity|reflexivity|apply B_nil]|].
  split; [eapply E_ask; [reflexivity|]; eapply E_ask; [reflexivity|]; apply E_nil|].
  split; [eapply E_ask; [reflexivity|]; apply E_copy, E_nil|]. cbn. discriminate.
Qed.
Print Assumptions C97_level_refuted.
