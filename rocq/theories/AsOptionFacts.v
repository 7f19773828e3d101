From Coq Require Import ZArith NArith List Bool Lia.
From Verif Require Import Outcome Words WordsFacts Ints Types OptBytes TypesSpec TypesFacts OptBytesFacts AsOption.
Import ListNotations.
Open Scope N_scope.

Lemma as_option_bytes t v junk : wf (TOption t) -> max_level t <> 0 -> sized (sizeof t) v -> sized (sizeof (TOption t)) junk ->
  opt_as_option t v junk = Ok v.
Proof.
  intros Hw Hm Hv Hj. destruct (opt_default_ok t junk Hw Hj) as (b & H1 & H2 & _). unfold opt_as_option. rewrite H1. cbn [rbind].
  f_equal. apply valid_sized in H2. rewrite option_size_traits in H2 by exact Hm. apply splice_all. destruct Hv, H2. congruence.
Qed.

(** The result is the given representation, seen as an option. *)
Theorem as_option_ok t v junk : wf (TOption t) -> max_level t <> 0 -> sized (sizeof t) v -> sized (sizeof (TOption t)) junk ->
  exists b, opt_as_option t v junk = Ok b /\
    (valid t v -> holds t v b) /\
    (get_level t v = Ok 0 -> emptied t b) /\
    (forall l, get_level t v = Ok l -> l <> 0 -> opt_has_value t b = Ok true /\ opt_get t b = Ok v).
Proof.
  intros Hw Hm Hv Hj. exists v. split; [now apply as_option_bytes|].
  assert (Hs : sized (sizeof (TOption t)) v) by (now rewrite option_size_traits by exact Hm).
  apply N.eqb_neq in Hm as Hm'.
  assert (Hsl : slice 0 (sizeof t) v = v).
  { destruct Hv as [Hl _]. rewrite <- Hl. unfold slice. cbn [skipn]. apply firstn_all. }
  split; [|split].
  - intros Hva. apply holds_intro; auto; [apply Hw|].
    rewrite <- (splice_all v v) by reflexivity. apply has_value_traits_valid; auto. apply Hw.
  - intros Hg. apply emptied_intro; [exact Hs|]. unfold opt_has_value. rewrite Hm', Hg. reflexivity.
  - intros l Hg Hl. assert (Hh : opt_has_value t v = Ok true).
    { unfold opt_has_value. rewrite Hm', Hg. cbn. apply N.eqb_neq in Hl. now rewrite Hl. }
    split; [exact Hh|]. unfold opt_get. rewrite Hh. cbn. now rewrite Hsl.
Qed.
