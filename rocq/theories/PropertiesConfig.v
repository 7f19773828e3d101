(** Property theorems about the configuration of the header: C72, C73 and C74. *)

From Coq Require Import ZArith String List Bool Lia.
Import ListNotations.
From Verif Require Import Outcome Words Lifetime LifetimeSpec History HistorySpec.
From Verif Require Import HistoryFacts Classes ClassesFacts.
From Verif Require Import Preproc Config ConfigSpec ConfigFacts ConfigSamples Checks ChecksFacts ConfigLemmas.
Open Scope Z_scope.
Open Scope string_scope.
Open Scope list_scope.

(** C72: for every compiler, library, standard and choice of the documented macros.  The header is
    accepted exactly when the libraries that the user asks for are found. *)
Theorem C72_accepted : forall w s0, setting w s0 ->
  ((exists s, Preproc.run w header s0 = Done s) <-> accepted w s0).
Proof. exact header_accepted. Qed.
Print Assumptions C72_accepted.

(** What the user defines stays; what the user leaves open gets the documented default. *)
Theorem C72_settings : forall w s0 s, setting w s0 -> Preproc.run w header s0 = Done s ->
  (forall n b, ours n -> s0 n = Some b -> s n = Some b) /\
  (forall n z, In (n, z) [("OPTION_USE_QUIET_NAN", 0); ("OPTION_USE_BUILTIN_TRAITS", 1);
                          ("OPTION_CONSUMED_ANNOTATION_CHECKING", 0);
                          ("OPTION_FORWARD_DECLARE_STD", 1)] ->
     s0 n = None -> s n = Some (Num z)).
Proof. exact settings_kept. Qed.
Print Assumptions C72_settings.

(** The compiler and the library are told apart. *)
Theorem C72_compiler : forall w s0 s, setting w s0 -> Preproc.run w header s0 = Done s ->
  s "OPTION_CLANG" = Some (Num match family_of s0 with Clang | ClangCl => 1 | _ => 0 end) /\
  s "OPTION_GCC" = Some (Num match family_of s0 with Gcc => 1 | _ => 0 end) /\
  s "OPTION_MSVC" = Some (Num match family_of s0 with Msvc | ClangCl => 1 | _ => 0 end) /\
  s "OPTION_INTEL" = Some (Num match family_of s0 with Intel => 1 | _ => 0 end) /\
  s "OPTION_LIBCPP" = Some (Num match library_of s0 with LibCpp => 1 | _ => 0 end) /\
  s "OPTION_LIBSTDCPP" = Some (Num match library_of s0 with LibStdCpp => 1 | _ => 0 end) /\
  s "OPTION_STL" = Some (Num match library_of s0 with Stl => 1 | _ => 0 end) /\
  s "OPTION_UNKNOWN_STD" = Some (Num match library_of s0 with NoLibrary => 1 | _ => 0 end) /\
  s "OPTION_CAN_REFLECT_ENUM" = Some (Num match family_of s0 with Intel | Other => 0 | _ => 1 end) /\
  (s "OPTION_CURRENT_FUNCTION" = None <-> family_of s0 = Intel \/ family_of s0 = Other).
Proof. exact compiler_told. Qed.
Print Assumptions C72_compiler.

(** C++20 is recognised by the larger of the two version numbers. *)
Theorem C72_standard : forall w s0 s, setting w s0 -> Preproc.run w header s0 = Done s ->
  (s "OPTION_IS_CXX20" = Some (Num 1) <-> 202002 <= language s0) /\
  (s "OPTION_IS_CXX20" = Some (Num 0) <-> language s0 < 202002) /\
  (s "OPTION_CONSTEXPR_CXX20" = Some (Text "constexpr") <-> 202002 <= language s0).
Proof. exact standard_told. Qed.
Print Assumptions C72_standard.

(** The annotations are all on or all off; the declarations of namespace std are there or not. *)
Theorem C72_annotations : forall w s0 s, setting w s0 -> Preproc.run w header s0 = Done s ->
  (forall n t, In (n, t)
      [("OPTION_CONSUMABLE", "[[clang::consumable(x)]]");
       ("OPTION_CALLABLE_WHEN", "[[clang::callable_when(x)]]");
       ("OPTION_PARAM_TYPESTATE", "[[clang::param_typestate(x)]]");
       ("OPTION_RETURN_TYPESTATE", "[[clang::return_typestate(x)]]");
       ("OPTION_SET_TYPESTATE", "[[clang::set_typestate(x)]]");
       ("OPTION_TEST_TYPESTATE", "[[clang::test_typestate(x)]]")] ->
    s n = Some (Text (if on (s0 "OPTION_CONSUMED_ANNOTATION_CHECKING") &&
                         forallb (attribute w s0)
                           ["clang::consumable"; "clang::callable_when"; "clang::param_typestate";
                            "clang::return_typestate"; "clang::set_typestate"; "clang::test_typestate"]
                      then t else ""))) /\
  (forall n, In n ["OPTION_STD_NAMESPACE_BEGIN"; "OPTION_STD_NAMESPACE_END";
                   "OPTION_STD_NAMESPACE_CXX11_BEGIN"; "OPTION_STD_NAMESPACE_CXX11_END"] ->
    (s n <> None <-> off (s0 "OPTION_FORWARD_DECLARE_STD") = false)).
Proof. exact annotations_told. Qed.
Print Assumptions C72_annotations.

(** Every macro that the rest of the header tests or uses is defined at the end. *)
Theorem C72_complete : forall w s0 s, setting w s0 -> Preproc.run w header s0 = Done s ->
  forall n, In n
    ["OPTION_CLANG"; "OPTION_GCC"; "OPTION_MSVC"; "OPTION_INTEL"; "OPTION_LIBCPP"; "OPTION_LIBSTDCPP";
     "OPTION_STL"; "OPTION_UNKNOWN_STD"; "OPTION_HAS_ATTRIBUTE"; "OPTION_HAS_CPP_ATTRIBUTE";
     "OPTION_HAS_BUILTIN"; "OPTION_LIFETIMEBOUND"; "OPTION_PURE"; "OPTION_NO_SANITIZE_OBJECT_SIZE";
     "OPTION_HAS_NO_SANITIZE_OBJECT_SIZE"; "OPTION_USE_QUIET_NAN"; "OPTION_USE_BUILTIN_TRAITS";
     "OPTION_LIBASSERT_FILE"; "OPTION_VERIFY"; "OPTION_CXX_VER"; "OPTION_IS_CXX20";
     "OPTION_CONSTEXPR_CXX20"; "OPTION_DECLSPEC_EMPTY_BASES"; "OPTION_CAN_REFLECT_ENUM";
     "OPTION_CONSUMED_ANNOTATION_CHECKING"; "OPTION_CONSUMABLE"; "OPTION_CALLABLE_WHEN";
     "OPTION_PARAM_TYPESTATE"; "OPTION_RETURN_TYPESTATE"; "OPTION_SET_TYPESTATE";
     "OPTION_TEST_TYPESTATE"; "OPTION_FORWARD_DECLARE_STD"; "OPTION_ADDRESSOF"] ->
  s n <> None.
Proof. exact all_defined. Qed.
Print Assumptions C72_complete.

Example C72_ex : setting (world_of []) (of_list gcc12) /\ accepted (world_of []) (of_list gcc12) /\
  family_of (of_list gcc12) = Gcc /\ library_of (of_list gcc12) = LibStdCpp /\
  family_of (of_list clang17) = Clang /\ language (of_list clang17) = 202002.
Proof.
  split; [apply sample_setting; try reflexivity|].
  - repeat split; try exact I. eexists. reflexivity.
  - split; [split; discriminate|]. repeat split.
Qed.

(** C73: the library for aggregates, found or given.  With `OPTION_USE_PFR` defined, or without a file
    of one's own, it is the one that the documentation leads one to expect. *)
Theorem C73_library_partial : forall w s0 s, setting w s0 -> Preproc.run w header s0 = Done s ->
  genuine w s0 -> file_alone s0 = false ->
  (s "OPTION_HAS_PFR" <> None <-> expected w s0 <> None) /\
  s "OPTION_PFR_NAMESPACE" = option_map (fun l => Text (namespace_of l)) (expected w s0).
Proof. exact pfr_expected. Qed.
Print Assumptions C73_library_partial.

(** With a file of one's own alone: the namespace is never defined, a file for pfr (not boost.pfr) is
    never used. *)
Theorem C73_file_alone_exact : forall w s0 s f, setting w s0 -> Preproc.run w header s0 = Done s ->
  s0 "OPTION_USE_PFR" = None -> s0 "OPTION_PFR_FILE" = Some (File f) ->
  (s "OPTION_HAS_PFR" <> None <-> files w f <> None /\ enabled w s0 f Boost = true) /\
  s "OPTION_PFR_NAMESPACE" = None.
Proof. intros w s0 s f H R. exact (final_file_alone w s0 H s R f). Qed.
Print Assumptions C73_file_alone_exact.

(** So giving the path of boost.pfr makes the header use a namespace that is not defined. *)
Theorem C73_namespace_refuted : exists w s0 s, setting w s0 /\ genuine w s0 /\
  Preproc.run w header s0 = Done s /\
  expected w s0 = Some Boost /\ s "OPTION_HAS_PFR" <> None /\ s "OPTION_PFR_NAMESPACE" = None.
Proof. exact namespace_missing. Qed.
Print Assumptions C73_namespace_refuted.

(** Documented: a file that does not exist is an error.  It is ignored. *)
Theorem C73_missing_file_refuted : exists w s0 s f, setting w s0 /\
  Preproc.run w header s0 = Done s /\ s0 "OPTION_PFR_FILE" = Some (File f) /\ files w f = None.
Proof. exact missing_file_ignored. Qed.
Print Assumptions C73_missing_file_refuted.

(** Documented: `OPTION_USE_PFR` is true by default.  Defining it as 1 without a file is an error even
    where boost.pfr is installed (and is found when the macro is left alone). *)
Theorem C73_default_refuted : exists w s0 s, setting w s0 /\
  s0 "OPTION_USE_PFR" = None /\ Preproc.run w header s0 = Done s /\ s "OPTION_HAS_PFR" <> None /\
  setting w (define s0 "OPTION_USE_PFR" (Num 1)) /\
  Preproc.run w header (define s0 "OPTION_USE_PFR" (Num 1)) = Stopped Malformed.
Proof. exact explicit_default_fails. Qed.
Print Assumptions C73_default_refuted.

Example C73_ex :
  expected (world_of [boost_hpp; pfr_hpp]) (of_list gcc12) = Some Boost /\
  expected (world_of [pfr_hpp]) (of_list gcc12) = Some Standalone /\
  expected (world_of [pfr_hpp]) (of_list (("OPTION_USE_PFR", Num 0) :: gcc12)) = None /\
  genuine (world_of [boost_hpp; pfr_hpp]) (of_list gcc12) /\ file_alone (of_list gcc12) = false.
Proof.
  do 3 (split; [reflexivity|]). split; [|reflexivity].
  split; [reflexivity|]. split; [reflexivity|]. intro f. unfold after. cbn [world_of files find fst snd].
  destruct (String.eqb (fst boost_hpp) f); [right; reflexivity|].
  destruct (String.eqb (fst pfr_hpp) f); [left; reflexivity|].
  left. destruct (existsb (String.eqb f) standard_headers); reflexivity.
Qed.

(** C74: what a failed check does.  A debug build reports it; a release build assumes that it holds on
    the compilers it knows and does nothing on others. *)
Theorem C74_debug : forall w s0 s, setting w s0 -> Preproc.run w header s0 = Done s ->
  s0 "OPTION_VERIFY" = None -> s0 "NDEBUG" = None -> uses_libassert w s0 = false ->
  forall A (x : A) stale resume,
  get_in (build_of w s resume) (Some x) stale = Returns x /\
  get_in (build_of w s false) None stale = @Ends A /\
  (family_of s0 = Gcc -> get_in (build_of w s resume) None stale = @Ends A).
Proof. exact debug_build. Qed.
Print Assumptions C74_debug.

Theorem C74_release : forall w s0 s, setting w s0 -> Preproc.run w header s0 = Done s ->
  s0 "OPTION_VERIFY" = None -> s0 "NDEBUG" <> None ->
  forall A (x : A) stale resume,
  get_in (build_of w s resume) (Some x) stale = Returns x /\
  get_in (build_of w s resume) None stale =
    match family_of s0 with Intel | Other => Returns stale | _ => Undefined end.
Proof. exact release_build. Qed.
Print Assumptions C74_release.

(** value_or_throw() and value(): with exceptions they throw, in every configuration. *)
Theorem C74_throws : forall w s0 s, setting w s0 -> Preproc.run w header s0 = Done s ->
  (exists z, s0 "__cpp_exceptions" = Some (Num z) /\ 199711 <= z) ->
  forall A (x : A) stale resume,
  value_or_throw_in (build_of w s resume) (Some x) stale = Returns x /\
  value_or_throw_in (build_of w s resume) None stale = @Throws A.
Proof. exact access_throws. Qed.
Print Assumptions C74_throws.

(** Without exceptions they never return a value from an empty option, but the end is orderly in a debug
    build only. *)
Theorem C74_no_exceptions : forall w s0 s, setting w s0 -> Preproc.run w header s0 = Done s ->
  s0 "__cpp_exceptions" = None -> s0 "OPTION_VERIFY" = None -> uses_libassert w s0 = false ->
  forall A (stale : A) resume,
  value_or_throw_in (build_of w s resume) None stale =
    match s0 "NDEBUG" with
    | None => if resume then match family_of s0 with Gcc => Ends | _ => Undefined end else Ends
    | Some _ => Undefined
    end.
Proof. exact access_without_exceptions. Qed.
Print Assumptions C74_no_exceptions.

(** A history of calls that never reads an empty option does the same in every build. *)
Theorem C74_same_in_every_build : forall W (C : cls W) (S : sem C), lawful C S -> ~ stops S ->
  forall os l w, healthy C S l -> Forall (fair C S) os -> Forall (gentle C S) os ->
  (forall os1 o os2 ks a, os = os1 ++ o :: os2 -> runs C S os1 ks (values C S l) a -> ~ misuse C S o a) ->
  History.run C S os l w <> HBad ->
  exists l' w', forall b, history_in b (History.run C S os l w) = Returns (l', w').
Proof. exact no_misuse_agrees. Qed.
Print Assumptions C74_same_in_every_build.

(** Three builds: GCC debug, the same with libassert, and release builds of two other compilers. *)
Example C74_ex :
  setting (world_of []) (of_list gcc12) /\ uses_libassert (world_of []) (of_list gcc12) = false /\
  setting (world_of [assert_hpp]) (of_list gcc12) /\
  uses_libassert (world_of [assert_hpp]) (of_list gcc12) = true /\
  setting (world_of []) (of_list (("NDEBUG", Num 1) :: nobody)) /\
  family_of (of_list (("NDEBUG", Num 1) :: nobody)) = Other /\
  setting (world_of []) (of_list (("NDEBUG", Num 1) :: clang17)) /\
  of_list (("NDEBUG", Num 1) :: clang17) "__cpp_exceptions" = None.
Proof.
  split; [apply gcc12_setting; reflexivity|]. split; [reflexivity|].
  split; [apply gcc12_setting; reflexivity|]. split; [reflexivity|].
  split; [apply sample_setting; try reflexivity; repeat split; try exact I; eexists; reflexivity|].
  split; [reflexivity|].
  split; [apply sample_setting; try reflexivity; repeat split; try exact I; eexists; reflexivity|].
  reflexivity.
Qed.

Definition C74_program : list (History.call (fussy 3 false) (fussy_sem 3 false)) :=
  [New 0 (IVal (5%N : Lifetime.init (fussy 3 false))) (mkcell (C := fussy 3 false) 77%N 1%N false);
   Assign 0 (IVal (7%N : Lifetime.init (fussy 3 false))); Reset 0; Destroy 0].

(** The hypotheses of [C74_same_in_every_build] hold of a program, and it runs to its end. *)
Example C74_ex_program :
  lawful (fussy 3 false) (fussy_sem 3 false) /\ ~ stops (fussy_sem 3 false) /\
  Forall (fair _ _) C74_program /\ Forall (gentle _ _) C74_program /\
  (forall os1 o os2 ks a, C74_program = os1 ++ o :: os2 ->
     runs (fussy 3 false) (fussy_sem 3 false) os1 ks (values _ _ (repeat None 1)) a -> ~ misuse _ _ o a) /\
  History.run (fussy 3 false) (fussy_sem 3 false) C74_program (repeat None 1) [false; true] <> HBad.
Proof.
  split; [apply fussy_lawful; unfold umax_base; lia|]. split; [intros []|].
  split; [repeat constructor|].
  split; [apply Forall_forall; intros o _; apply HistoryFacts.quiet_gentle, fussy_quiet; auto|].
  split; [|vm_compute; discriminate].
  intros os1 o os2 ks a E _ M.
  assert (I : In o C74_program) by (rewrite E; apply in_or_app; right; left; reflexivity).
  cbn in I. repeat (destruct I as [<-|I]; [exact M|]). contradiction.
Qed.
