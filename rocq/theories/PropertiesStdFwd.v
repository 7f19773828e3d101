(** Property C101: the declarations of templates of the standard library. *)
From Coq Require Import ZArith Bool List String.
From Verif Require Import StdFwd StdFwdSpec StdFwdFacts.
From Verif Require Preproc Config StdFwdConfigFacts.
Import ListNotations.
Open Scope string_scope.
Open Scope list_scope.

(** With libc++, the library of MSVC, and libstdc++ with the strings of C++11 and without debug mode, every class or class
    template that the header declares is the library's own, so a name in std has one meaning; without
    OPTION_FORWARD_DECLARE_STD always. *)
Theorem C101_own : forall l x ds, ordinary l -> parse [] (block l true x) = Some ds -> forall p n, In (p, n) ds -> p = home l n.
Proof. exact own. Qed.
Print Assumptions C101_own.
Theorem C101_declares : forall l x, ordinary l ->
  parse [] (block l true x) = Some (map (fun n => (home l n, n)) (wanted l x)).
Proof. exact declares. Qed.
Print Assumptions C101_declares.
Theorem C101_one_meaning : forall l f x, ordinary l \/ f = false ->
  exists ds, parse [] (block l f x) = Some ds /\ forall n, unambiguous l ds n.
Proof. exact one_meaning. Qed.
Print Assumptions C101_one_meaning.
Example C101_own_ex : ordinary (LibStdCpp (Some "__8") true false) /\
  home (LibStdCpp (Some "__8") true false) "basic_string" = ["std"; "__8"; "__cxx11"] /\
  option_map (fun ds => (nth 1 ds ([], ""), List.length ds)) (parse [] (block (LibStdCpp (Some "__8") true false) true true)) =
    Some ((["std"; "__8"; "__cxx11"], "basic_string"), 16) /\
  option_map (fun ds => nth 1 ds ([], "")) (parse [] (block (LibCpp "__1") true false)) = Some (["std"; "__1"], "basic_string").
Proof. repeat split. Qed.

(** Exactly these libraries (an inline version namespace that is called __debug aside). *)
Theorem C101_exact : forall l x, (forall v c, l <> LibStdCpp (Some "__debug") v c) ->
  ((exists ds, parse [] (block l true x) = Some ds /\ forall n, unambiguous l ds n) <-> ordinary l).
Proof. exact ordinary_exact. Qed.
Print Assumptions C101_exact.
(** With the strings from before C++11 the header is not well-formed: the word inline stands before a template. *)
Theorem C101_old_strings : forall v d x, parse [] (block (LibStdCpp v false d) true x) = None.
Proof. exact old_strings. Qed.
Print Assumptions C101_old_strings.
Theorem C101_old_strings_refuted : exists l x, parse [] (block l true x) = None.
Proof. exists (LibStdCpp None false false), false. apply C101_old_strings. Qed.
Print Assumptions C101_old_strings_refuted.
(** In debug mode std::vector has two meanings. *)
Theorem C101_debug : forall v x ds, v <> Some "__debug" -> parse [] (block (LibStdCpp v true true) true x) = Some ds ->
  ~ unambiguous (LibStdCpp v true true) ds "vector".
Proof. exact debug_ambiguous. Qed.
Print Assumptions C101_debug.
Theorem C101_debug_refuted : exists l ds p q, parse [] (block l true false) = Some ds /\
  denotes l ds "vector" p /\ denotes l ds "vector" q /\ p <> q.
Proof.
  exists (LibStdCpp None true true). eexists. exists ["std"; "__debug"], ["std"]. split; [reflexivity|]. split; [|split; [|discriminate]].
  - split; [|now left]. apply (home_searched (LibStdCpp None true true) "vector").
  - split; [constructor|]. right. right. right. now left.
Qed.
Print Assumptions C101_debug_refuted.

(** The parser accepts exactly the sequences of declarations. *)
Theorem C101_parse : forall ts ds, parse [] ts = Some ds <-> sequence [] ts ds.
Proof. exact parse_exact. Qed.
Print Assumptions C101_parse.
Example C101_parse_ex : sequence [] [Namespace; Name "std"; Open; Declare "hash"; Close] [(["std"], "hash")].
Proof. apply C101_parse. reflexivity. Qed.

(** The words are those of the macros that the preprocessor leaves defined. *)
Theorem C101_macros : forall w a l,
  a "OPTION_FORWARD_DECLARE_STD" = Some (Preproc.Num 1) ->
  (forall n, In n ["OPTION_LIBCPP"; "OPTION_LIBSTDCPP"; "OPTION_STL"] -> a n = Some (Preproc.Num (if String.eqb n (detected l) then 1 else 0))) ->
  (forall n, In n (own_macros l) -> a n <> None) ->
  (forall n, In n ["OPTION_STD_NAMESPACE_BEGIN"; "OPTION_STD_NAMESPACE_END"; "OPTION_STD_NAMESPACE_CXX11_BEGIN";
                   "OPTION_STD_NAMESPACE_CXX11_END"] -> a n = None) ->
  exists b, Preproc.run w Config.forward_std a = Preproc.Done b /\
    b "OPTION_STD_NAMESPACE_BEGIN" = Some (Preproc.Text (String.concat " " (w_begin (branch l)))) /\
    b "OPTION_STD_NAMESPACE_END" = Some (Preproc.Text (String.concat " " (w_end (branch l)))) /\
    b "OPTION_STD_NAMESPACE_CXX11_BEGIN" = Some (Preproc.Text (String.concat " " (w_inner_begin (branch l)))) /\
    b "OPTION_STD_NAMESPACE_CXX11_END" = Some (Preproc.Text (String.concat " " (w_inner_end (branch l)))).
Proof. exact StdFwdConfigFacts.texts. Qed.
Print Assumptions C101_macros.
Example C101_macros_ex : let a := fun n =>
    if String.eqb n "OPTION_FORWARD_DECLARE_STD" || String.eqb n "OPTION_LIBSTDCPP" then Some (Preproc.Num 1)
    else if String.eqb n "OPTION_LIBCPP" || String.eqb n "OPTION_STL" then Some (Preproc.Num 0)
    else if String.eqb n "OPTION_STD_NAMESPACE_BEGIN" || String.eqb n "OPTION_STD_NAMESPACE_END" ||
            String.eqb n "OPTION_STD_NAMESPACE_CXX11_BEGIN" || String.eqb n "OPTION_STD_NAMESPACE_CXX11_END" then None
    else Some (Preproc.Text "") in
  forall w, exists b, Preproc.run w Config.forward_std a = Preproc.Done b /\
    b "OPTION_STD_NAMESPACE_CXX11_BEGIN" = Some (Preproc.Text "inline _GLIBCXX_BEGIN_NAMESPACE_CXX11").
Proof. intros a w. eexists. split; reflexivity. Qed.
