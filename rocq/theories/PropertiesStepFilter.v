(** C102: the debugger does not step into the functions of namespace opt, and steps into all others. *)
From Coq Require Import Bool List Ascii String.
From Verif Require Import PyText StepFilter StepFilterSpec StepFilterFacts.
Import ListNotations.

(** Expressions are read as they are written, and match what they describe. *)
Theorem C102_pieces : forall s ps, pieces s = Some ps <-> flat_map writes ps = s /\ Forall proper ps.
Proof. exact pieces_exact. Qed.
Print Assumptions C102_pieces.
Theorem C102_matches : forall ps s, matches ps s = true <-> language ps s.
Proof. exact matches_exact. Qed.
Print Assumptions C102_matches.
Example C102_matches_ex : pieces (txt "a?b*.+") = Some [(Lit "a", Optional); (Lit "b", Repeated); (Dot, Positive)] /\
  matches [(Lit "a"%char, Optional); (Lit "b"%char, Repeated); (Dot, Positive)] (txt "bbb") = true /\
  matches [(Lit "a"%char, Optional); (Lit "b"%char, Repeated); (Dot, Positive)] (txt "a") = true /\ pieces (txt "a|b") = None.
Proof. repeat split. Qed.

(** The names that are skipped. *)
Theorem C102_names : forall name, skipped name = true <->
  exists rest, name = txt "opt::" ++ rest /\ rest <> [] /\ ~ In "010"%char rest /\ ~ In "013"%char rest.
Proof. exact skipped_exact. Qed.
Print Assumptions C102_names.
(** Of the qualified names: those in the namespace opt, at any depth, whatever their template arguments are. *)
Theorem C102_functions : forall ws, Forall part ws ->
  (skipped (qualified ws) = true <-> exists rest, ws = txt "opt" :: rest /\ rest <> []).
Proof. exact functions_exact. Qed.
Print Assumptions C102_functions.
Example C102_functions_ex : Forall part [txt "opt"; txt "option<std::pair<int,int> >"; txt "value_or<int>"] /\
  skipped (txt "opt::option<std::pair<int,int> >::value_or<int>") = true /\
  skipped (txt "mine::opt::f") = false /\ skipped (txt "optional::f") = false /\ skipped (txt "f<opt::option<int> >") = false.
Proof.
  assert (P : forall i t, forallb (fun c => negb (Ascii.eqb c "010" || Ascii.eqb c "013")) (i ++ t)%list = true -> i <> [] ->
    existsb (Ascii.eqb ":") i = false -> t = [] \/ (exists r, t = "<"%char :: r) -> part (i ++ t)).
  { intros i t F N C T. rewrite forallb_forall in F. split; [intros I; now specialize (F _ I)|]. split; [intros I; now specialize (F _ I)|].
    exists i, t. split; [reflexivity|]. split; [exact N|]. split; [|exact T]. intros I. rewrite <- not_true_iff_false in C. apply C.
    apply existsb_exists. now exists ":"%char. }
  split; [|repeat split]. constructor; [|constructor; [|constructor; [|constructor]]].
  - apply (P (txt "opt") []); [reflexivity|discriminate|reflexivity|now left].
  - apply (P (txt "option") (txt "<std::pair<int,int> >")); [reflexivity|discriminate|reflexivity|right; now eexists].
  - apply (P (txt "value_or") (txt "<int>")); [reflexivity|discriminate|reflexivity|right; now eexists].
Qed.

(** Functions of the header that are stepped into: std::hash is outside of opt (option.hpp 4070-4093). *)
Theorem C102_hash_refuted : exists ws, Forall part ws /\ ws = [txt "std"; txt "hash<opt::option<int> >"; txt "operator()"] /\
  skipped (qualified ws) = false.
Proof.
  eexists. split; [|split; reflexivity].
  assert (P : forall i t, forallb (fun c => negb (Ascii.eqb c "010" || Ascii.eqb c "013")) (i ++ t)%list = true -> i <> [] ->
    existsb (Ascii.eqb ":") i = false -> t = [] \/ (exists r, t = "<"%char :: r) -> part (i ++ t)).
  { intros i t F N C T. rewrite forallb_forall in F. split; [intros I; now specialize (F _ I)|]. split; [intros I; now specialize (F _ I)|].
    exists i, t. split; [reflexivity|]. split; [exact N|]. split; [|exact T]. intros I. rewrite <- not_true_iff_false in C. apply C.
    apply existsb_exists. now exists ":"%char. }
  constructor; [|constructor; [|constructor; [|constructor]]].
  - apply (P (txt "std") []); [reflexivity|discriminate|reflexivity|now left].
  - apply (P (txt "hash") (txt "<opt::option<int> >")); [reflexivity|discriminate|reflexivity|right; now eexists].
  - apply (P (txt "operator()") []); [reflexivity|discriminate|reflexivity|now left].
Qed.
Print Assumptions C102_hash_refuted.
(** Functions of the user that are not stepped into: those of their own specialisations of option_traits. *)
Theorem C102_traits_refuted : forall args f, skipped (qualified [txt "opt"; txt "option_traits<" ++ args; f]) = true <->
  ~ In "010"%char (args ++ f) /\ ~ In "013"%char (args ++ f).
Proof. exact traits_skipped. Qed.
Print Assumptions C102_traits_refuted.
Example C102_traits_ex : skipped (txt "opt::option_traits<my_type,void>::get_level") = true.
Proof. reflexivity. Qed.
