(** The raw item of the visualizer (C59). *)
From Coq Require Import NArith List Bool.
From Verif Require Import Outcome Words Types OptBytes TypesSpec Natvis NatvisSpec NatvisRaw NatvisRawSpec NatvisRawFacts.
Import ListNotations.
Open Scope N_scope.

(** The number shows all of the option: it determines every byte, and so whether there is a value. *)
Theorem C59_raw_whole : forall p t k b n, (p = 8%nat /\ msvc64 t) \/ (p = 4%nat /\ msvc32 t) -> valid (TOption (nest k t)) b ->
  raw p k t b = Some n -> b = le_encode (length b) n.
Proof. exact raw_whole. Qed.
Print Assumptions C59_raw_whole.
(** [none] is shown exactly for these numbers. *)
Theorem C59_raw_condition : forall p t k b n, (p = 8%nat /\ msvc64 t) \/ (p = 4%nat /\ msvc32 t) -> valid (TOption (nest k t)) b ->
  raw p k t b = Some n -> (forall q, bare t = TFloat64 q -> k <> 1%nat) ->
  shown p k t b = Shows (existsb (N.eqb n) (marks k (bare t))).
Proof. exact raw_condition. Qed.
Print Assumptions C59_raw_condition.
(** For option<option<double>> it is one number only: the other one is compared with four bytes. *)
Theorem C59_raw_double : forall p q b n, valid (TOption (nest 1 (TFloat64 q))) b -> raw p 1 (TFloat64 q) b = Some n ->
  shown p 1 (TFloat64 q) b = Shows (n =? 0xFFF6C79F55B08990).
Proof. exact raw_double. Qed.
Print Assumptions C59_raw_double.
Example C59_raw_ex : msvc64 TBool /\ valid (TOption (nest 1 TBool)) [3] /\ raw 8 1 TBool [3] = Some 3 /\
  shown 8 1 TBool [3] = Shows true /\ marks 1 TBool = [3] /\ raw 8 1 TBool [1] = Some 1 /\ shown 8 1 TBool [1] = Shows false.
Proof.
  split; [exact I|]. split; [|repeat split].
  split; [split; [reflexivity|repeat constructor]|]. left. reflexivity.
Qed.
