(** C59: the Visual Studio visualizer shows [none] exactly for empty options. *)
From Coq Require Import NArith String List Bool.
From Verif Require Import Outcome Words Ints Types OptBytes TypesSpec RefOpt Natvis NatvisSpec NatvisFacts.
Import ListNotations.
Open Scope N_scope.

(** 64-bit builds: whatever is shown is what has_value() says, for every type and nesting depth, unless the
    bytes are those the other family of NaNs would use. *)
Theorem C59_agrees_partial : forall t k b n, msvc64 t -> valid (TOption (nest k t)) b -> ~ other_nan k (bare t) b ->
  shown 8 k t b = Shows n -> opt_has_value (nest k t) b = Ok (negb n).
Proof. exact shown64_ok. Qed.
Print Assumptions C59_agrees_partial.

(** The types with an entry of their own, and those with a separate flag, do get an answer. *)
Theorem C59_decides : forall t k b, wf (nest k t) -> msvc64 t -> listed k (bare t) -> valid (TOption (nest k t)) b ->
  exists n, shown 8 k t b = Shows n.
Proof. exact shown64_decides. Qed.
Print Assumptions C59_decides.

Example C59_ex :
  let b := le_encode 8 (0xFFF6C79F55B0898F + 1) in
  valid (TOption (nest 1 (TFloat64 false))) b /\ ~ other_nan 1 (TFloat64 false) b /\ listed 1 (TFloat64 false) /\
  shown 8 1 (TFloat64 false) b = Shows true /\ opt_has_value (nest 1 (TFloat64 false)) b = Ok false /\
  shown 8 0 TBool [1] = Shows false /\ shown 8 0 (TOpaque 4 4) [7; 0; 0; 0; 1; 0; 0; 0] = Shows false.
Proof. exact natvis_ex. Qed.

(** option<T&>. *)
Theorem C59_reference : forall p q b, p < wbase q -> b = le_encode q p -> show_reference q b = Shows (negb (r_has p)).
Proof. exact reference_ok. Qed.
Print Assumptions C59_reference.

(** 32-bit builds, apart from strings, pointers and option<option<double>>. *)
Theorem C59_agrees32_partial : forall t k b n, msvc32 t -> ~ amiss32 k (bare t) ->
  valid (TOption (nest k t)) b -> ~ other_nan k (bare t) b ->
  shown 4 k t b = Shows n -> opt_has_value (nest k t) b = Ok (negb n).
Proof. exact shown32_ok. Qed.
Print Assumptions C59_agrees32_partial.

(** 64-bit: a double holding a value is shown as [none], for the NaN that 32-bit builds use. *)
Theorem C59_nan_refuted : exists t k b, msvc64 t /\ valid (TOption (nest k t)) b /\
  shown 8 k t b = Shows true /\ opt_has_value (nest k t) b = Ok true.
Proof. exact nan_refuted. Qed.
Print Assumptions C59_nan_refuted.

(** 64-bit: an option of a pointer to data member is read beyond its end. *)
Theorem C59_member_pointer_refuted : exists b, valid (TOption TMemPtr32) b /\ shown 8 0 TMemPtr32 b = Outside.
Proof. exact member_pointer_refuted. Qed.
Print Assumptions C59_member_pointer_refuted.

(** Sentinels are never shown: the entries name a member that does not exist. *)
Theorem C59_sentinel_refuted : forall p it vals k b, (k <= 2)%nat -> (k < length vals)%nat ->
  shown p k (TSentinel it vals) b = Unresolved.
Proof. exact sentinel_refuted. Qed.
Print Assumptions C59_sentinel_refuted.

(** 32-bit: an empty pointer is shown as a value, whichever its bytes; *)
Theorem C59_pointer32_refuted : forall b, sized 4 b -> shown 4 0 TPtr32 b = Shows false.
Proof. exact pointer32_refuted. Qed.
Print Assumptions C59_pointer32_refuted.
Example C59_pointer32_ex : exists b, valid (TOption TPtr32) b /\ opt_has_value TPtr32 b = Ok false.
Proof. exact pointer32_ex. Qed.

(** so is the empty option<option<double>>; *)
Theorem C59_double32_refuted : exists b, msvc32 (TFloat64 true) /\ valid (TOption (nest 1 (TFloat64 true))) b /\
  shown 4 1 (TFloat64 true) b = Shows false /\ opt_has_value (nest 1 (TFloat64 true)) b = Ok false.
Proof. exact double32_refuted. Qed.
Print Assumptions C59_double32_refuted.

(** and the conditions for strings read beyond the object. *)
Theorem C59_string32_refuted : forall d k b, (k <= 2)%nat -> valid (TOption (nest k (TString 4 (STL d)))) b ->
  shown 4 k (TString 4 (STL d)) b = Outside.
Proof. exact string32_refuted. Qed.
Print Assumptions C59_string32_refuted.
