(** The lemmas behind C72, C73 and C74, in the words of their statements. *)

From Coq Require Import ZArith String List Bool Lia.
Import ListNotations.
From Verif Require Import Preproc Config ConfigSpec ConfigFacts ConfigSamples Checks ChecksFacts.
Open Scope Z_scope.
Open Scope string_scope.
Open Scope list_scope.

Lemma header_accepted w s0 : setting w s0 ->
  ((exists s, run w header s0 = Done s) <-> accepted w s0).
Proof.
  intro H. split.
  - intros [s R]. apply (header_only w s0 H s R).
  - apply (header_runs w s0 H).
Qed.

Lemma settings_kept w s0 s : setting w s0 -> run w header s0 = Done s ->
  (forall n b, ours n -> s0 n = Some b -> s n = Some b) /\
  (forall n z, In (n, z) [("OPTION_USE_QUIET_NAN", 0); ("OPTION_USE_BUILTIN_TRAITS", 1);
                          ("OPTION_CONSUMED_ANNOTATION_CHECKING", 0);
                          ("OPTION_FORWARD_DECLARE_STD", 1)] ->
     s0 n = None -> s n = Some (Num z)).
Proof.
  intros H R. split.
  - intros n b O E. apply (header_keeps w s0 H s n b R O E).
  - intros n z I E. rewrite (final_setting w s0 H s R n z I). unfold setting_of. rewrite E. reflexivity.
Qed.

Lemma compiler_told w s0 s : setting w s0 -> run w header s0 = Done s ->
  s "OPTION_CLANG" = Some (Num match family_of s0 with Clang | ClangCl => 1 | _ => 0 end) /\
  s "OPTION_GCC" = Some (Num match family_of s0 with Gcc => 1 | _ => 0 end) /\
  s "OPTION_MSVC" = Some (Num match family_of s0 with Msvc | ClangCl => 1 | _ => 0 end) /\
  s "OPTION_INTEL" = Some (Num match family_of s0 with Intel => 1 | _ => 0 end) /\
  s "OPTION_LIBCPP" = Some (Num match library_of s0 with LibCpp => 1 | _ => 0 end) /\
  s "OPTION_LIBSTDCPP" = Some (Num match library_of s0 with LibStdCpp => 1 | _ => 0 end) /\
  s "OPTION_STL" = Some (Num match library_of s0 with Stl => 1 | _ => 0 end) /\
  s "OPTION_UNKNOWN_STD" = Some (Num match library_of s0 with NoLibrary => 1 | _ => 0 end) /\
  s "OPTION_CAN_REFLECT_ENUM" = Some (Num match family_of s0 with Intel | Other => 0 | _ => 1 end) /\
  (s "OPTION_CURRENT_FUNCTION" = None <-> family_of s0 = Intel \/ family_of s0 = Other).
Proof.
  intros H R.
  destruct (final_compilers w s0 H s R) as (C1 & C2 & C3 & C4).
  destruct (final_libraries w s0 H s R) as (L1 & L2 & L3 & L4).
  destruct (final_names w s0 H s R) as (N1 & N2).
  rewrite C1, C2, C3, C4, L1, L2, L3, L4, N1, N2. unfold names.
  do 9 (split; [destruct (family_of s0); reflexivity|]).
  destruct (family_of s0); split; intro X; try discriminate; try tauto;
    destruct X; discriminate.
Qed.

Lemma standard_told w s0 s : setting w s0 -> run w header s0 = Done s ->
  (s "OPTION_IS_CXX20" = Some (Num 1) <-> 202002 <= language s0) /\
  (s "OPTION_IS_CXX20" = Some (Num 0) <-> language s0 < 202002) /\
  (s "OPTION_CONSTEXPR_CXX20" = Some (Text "constexpr") <-> 202002 <= language s0).
Proof.
  intros H R. destruct (final_cxx20 w s0 H s R) as [-> ->].
  destruct (Z.leb_spec 202002 (language s0)); cbn;
    repeat split; intro X; try discriminate; try reflexivity; lia.
Qed.

Lemma annotations_told w s0 s : setting w s0 -> run w header s0 = Done s ->
  (forall n t, In (n, t)
      [("OPTION_CONSUMABLE", "[[clang::consumable(x)]]");
       ("OPTION_CALLABLE_WHEN", "[[clang::callable_when(x)]]");
       ("OPTION_PARAM_TYPESTATE", "[[clang::param_typestate(x)]]");
       ("OPTION_RETURN_TYPESTATE", "[[clang::return_typestate(x)]]");
       ("OPTION_SET_TYPESTATE", "[[clang::set_typestate(x)]]");
       ("OPTION_TEST_TYPESTATE", "[[clang::test_typestate(x)]]")] ->
    s n = Some (Text (if on (s0 "OPTION_CONSUMED_ANNOTATION_CHECKING") &&
                         forallb (attribute w s0)
                           ["clang::consumable"; "clang::callable_when"; "clang::param_typestate";
                            "clang::return_typestate"; "clang::set_typestate"; "clang::test_typestate"]
                      then t else ""))) /\
  (forall n, In n ["OPTION_STD_NAMESPACE_BEGIN"; "OPTION_STD_NAMESPACE_END";
                   "OPTION_STD_NAMESPACE_CXX11_BEGIN"; "OPTION_STD_NAMESPACE_CXX11_END"] ->
    (s n <> None <-> off (s0 "OPTION_FORWARD_DECLARE_STD") = false)).
Proof.
  intros H R. split.
  - apply (final_annotations w s0 H s R).
  - intros n I. pose proof (final_namespace w s0 H s R n I) as F. unfold forwards in F.
    destruct (off _), (s n); cbn in F; try discriminate; split; intro X; try discriminate; try reflexivity.
    contradiction.
Qed.

Lemma all_defined w s0 s : setting w s0 -> run w header s0 = Done s ->
  forall n, In n
    ["OPTION_CLANG"; "OPTION_GCC"; "OPTION_MSVC"; "OPTION_INTEL"; "OPTION_LIBCPP"; "OPTION_LIBSTDCPP";
     "OPTION_STL"; "OPTION_UNKNOWN_STD"; "OPTION_HAS_ATTRIBUTE"; "OPTION_HAS_CPP_ATTRIBUTE";
     "OPTION_HAS_BUILTIN"; "OPTION_LIFETIMEBOUND"; "OPTION_PURE"; "OPTION_NO_SANITIZE_OBJECT_SIZE";
     "OPTION_HAS_NO_SANITIZE_OBJECT_SIZE"; "OPTION_USE_QUIET_NAN"; "OPTION_USE_BUILTIN_TRAITS";
     "OPTION_LIBASSERT_FILE"; "OPTION_VERIFY"; "OPTION_CXX_VER"; "OPTION_IS_CXX20";
     "OPTION_CONSTEXPR_CXX20"; "OPTION_DECLSPEC_EMPTY_BASES"; "OPTION_CAN_REFLECT_ENUM";
     "OPTION_CONSUMED_ANNOTATION_CHECKING"; "OPTION_CONSUMABLE"; "OPTION_CALLABLE_WHEN";
     "OPTION_PARAM_TYPESTATE"; "OPTION_RETURN_TYPESTATE"; "OPTION_SET_TYPESTATE";
     "OPTION_TEST_TYPESTATE"; "OPTION_FORWARD_DECLARE_STD"; "OPTION_ADDRESSOF"] ->
  s n <> None.
Proof.
  intros H R n I.
  destruct (final_compilers w s0 H s R) as (C1 & C2 & C3 & C4).
  destruct (final_libraries w s0 H s R) as (L1 & L2 & L3 & L4).
  destruct (final_names w s0 H s R) as (_ & N2).
  destruct (final_sanitize w s0 H s R) as (S1 & S2).
  destruct (final_cxx20 w s0 H s R) as (X1 & X2).
  pose proof (final_verify w s0 H s R) as V.
  pose proof (final_setting w s0 H s R) as D.
  pose proof (final_annotations w s0 H s R) as A.
  pose proof (final_rest w s0 H s R) as Q.
  cbn [In] in I.
  repeat match type of I with
    | _ \/ _ => destruct I as [I|I]
    | False => contradiction
    end; subst n; try congruence;
    first [ erewrite D by (cbn; eauto 10); discriminate
          | erewrite A by (cbn; eauto 10); discriminate
          | match goal with |- s ?n <> None =>
              let E := fresh in assert (E : is_some (s n) = true) by (apply Q; cbn; tauto);
              destruct (s n); discriminate end
          | destruct (s "OPTION_NO_SANITIZE_OBJECT_SIZE"); discriminate ].
Qed.

Lemma pfr_expected w s0 s : setting w s0 -> run w header s0 = Done s ->
  genuine w s0 -> file_alone s0 = false ->
  (s "OPTION_HAS_PFR" <> None <-> expected w s0 <> None) /\
  s "OPTION_PFR_NAMESPACE" = option_map (fun l => Text (namespace_of l)) (expected w s0).
Proof.
  intros H R G A. destruct (final_expected w s0 H s R G A) as [E F]. split; [|exact F].
  destruct (s "OPTION_HAS_PFR"), (expected w s0); cbn in E; try discriminate; split; congruence.
Qed.

(** Examples. *)
Definition alone := ("OPTION_PFR_FILE", File "third/pfr.hpp") :: gcc12.

Lemma gcc12_setting l : good_files l = true -> setting (world_of l) (of_list gcc12).
Proof.
  intro F. apply sample_setting; [reflexivity|exact F|].
  repeat split; try exact I. eexists. reflexivity.
Qed.

Lemma alone_setting l : good_files l = true -> setting (world_of l) (of_list alone).
Proof.
  intro F. apply sample_setting; [reflexivity|exact F|].
  repeat split; try exact I. eexists. reflexivity.
Qed.

Lemma not_asked w s0 : s0 "OPTION_USE_PFR" = None -> s0 "OPTION_USE_LIBASSERT" = None -> accepted w s0.
Proof. intros A B. split; [rewrite A|rewrite B]; discriminate. Qed.

Lemma after_world l m f n :
  (forall p, In p l -> final (snd p) n (of_list m n) = None) -> of_list m n = None ->
  after (world_of l) (of_list m) f n = None.
Proof.
  intros H N. unfold after. cbn [world_of files].
  destruct (find _ l) as [[g x]|] eqn:E.
  - apply find_some in E as [I _]. apply (H _ I).
  - destruct (existsb (String.eqb f) standard_headers); [|exact N]. exact N.
Qed.

Lemma namespace_missing : exists w s0 s, setting w s0 /\ genuine w s0 /\
  run w header s0 = Done s /\
  expected w s0 = Some Boost /\ s "OPTION_HAS_PFR" <> None /\ s "OPTION_PFR_NAMESPACE" = None.
Proof.
  pose proof (alone_setting [mine_hpp] eq_refl) as H.
  destruct (header_runs _ _ H) as [s R]; [apply not_asked; reflexivity|].
  destruct (final_file_alone _ _ H s R "third/pfr.hpp" eq_refl eq_refl) as [E N].
  exists (world_of [mine_hpp]), (of_list alone), s.
  split; [exact H|]. split.
  { split; [reflexivity|]. split; [reflexivity|]. intro f. right. apply after_world; [|reflexivity].
    intros p [<-|[]]. reflexivity. }
  split; [exact R|]. split; [reflexivity|]. split; [|exact N].
  apply E. split; [discriminate|reflexivity].
Qed.

Lemma missing_file_ignored : exists w s0 s f, setting w s0 /\
  run w header s0 = Done s /\ s0 "OPTION_PFR_FILE" = Some (File f) /\ files w f = None.
Proof.
  pose proof (alone_setting [] eq_refl) as H.
  destruct (header_runs _ _ H) as [s R]; [apply not_asked; reflexivity|].
  exists (world_of []), (of_list alone), s, "third/pfr.hpp".
  split; [exact H|]. split; [exact R|]. split; reflexivity.
Qed.

Lemma explicit_default_fails : exists w s0 s, setting w s0 /\
  s0 "OPTION_USE_PFR" = None /\ run w header s0 = Done s /\ s "OPTION_HAS_PFR" <> None /\
  setting w (define s0 "OPTION_USE_PFR" (Num 1)) /\
  run w header (define s0 "OPTION_USE_PFR" (Num 1)) = Stopped Malformed.
Proof.
  pose proof (gcc12_setting [boost_hpp] eq_refl) as H.
  destruct (header_runs _ _ H) as [s R]; [apply not_asked; reflexivity|].
  exists (world_of [boost_hpp]), (of_list gcc12), s.
  split; [exact H|]. split; [reflexivity|]. split; [exact R|]. split.
  - destruct (pfr_expected _ _ _ H R) as [E _].
    + split; [reflexivity|]. split; [reflexivity|]. intro f. right. apply after_world; [|reflexivity].
      intros p [<-|[]]. reflexivity.
    + reflexivity.
    + apply E. discriminate.
  - split.
    + destruct H as (C & P & O & S & W). repeat split; try apply O.
      * intros n U D. unfold define in D. destruct (String.eqb_spec "OPTION_USE_PFR" n) as [<-|].
        -- cbn. tauto.
        -- apply (C n U D).
      * apply (P f l n b H H0).
      * apply (P f l n b H H0).
      * exact S.
      * apply (W f).
      * apply (W f).
    + vm_compute. reflexivity.
Qed.

Lemma debug_build w s0 s : setting w s0 -> run w header s0 = Done s ->
  s0 "OPTION_VERIFY" = None -> s0 "NDEBUG" = None -> uses_libassert w s0 = false ->
  forall A (x : A) stale resume,
  get_in (build_of w s resume) (Some x) stale = Returns x /\
  get_in (build_of w s false) None stale = @Ends A /\
  (family_of s0 = Gcc -> get_in (build_of w s resume) None stale = @Ends A).
Proof.
  intros H R V D U A x stale resume.
  pose proof (effect_reports w s0 s H R V D U) as E.
  unfold get_in, check_then, build_of. cbn [checks resumed]. rewrite E.
  split; [reflexivity|]. split.
  - cbn. rewrite orb_true_r. reflexivity.
  - intros ->. reflexivity.
Qed.

Lemma release_build w s0 s : setting w s0 -> run w header s0 = Done s ->
  s0 "OPTION_VERIFY" = None -> s0 "NDEBUG" <> None ->
  forall A (x : A) stale resume,
  get_in (build_of w s resume) (Some x) stale = Returns x /\
  get_in (build_of w s resume) None stale =
    match family_of s0 with Intel | Other => Returns stale | _ => Undefined end.
Proof.
  intros H R V D A x stale resume.
  pose proof (effect_release w s0 s H R V D) as E.
  unfold get_in, check_then, build_of. cbn [checks resumed]. rewrite E.
  split; [reflexivity|]. destruct (family_of s0); reflexivity.
Qed.

Lemma access_throws w s0 s : setting w s0 -> run w header s0 = Done s ->
  (exists z, s0 "__cpp_exceptions" = Some (Num z) /\ 199711 <= z) ->
  forall A (x : A) stale resume,
  value_or_throw_in (build_of w s resume) (Some x) stale = Returns x /\
  value_or_throw_in (build_of w s resume) None stale = @Throws A.
Proof.
  intros H R T A x stale resume. split; [reflexivity|].
  apply (throws_iff w s0 s H R resume) in T.
  unfold value_or_throw_in, throw_bad_access. rewrite T. reflexivity.
Qed.

Lemma access_without_exceptions w s0 s : setting w s0 -> run w header s0 = Done s ->
  s0 "__cpp_exceptions" = None -> s0 "OPTION_VERIFY" = None -> uses_libassert w s0 = false ->
  forall A (stale : A) resume,
  value_or_throw_in (build_of w s resume) None stale =
    match s0 "NDEBUG" with
    | None => if resume then match family_of s0 with Gcc => Ends | _ => Undefined end else Ends
    | Some _ => Undefined
    end.
Proof.
  intros H R T V U A stale resume.
  assert (N : throws (build_of w s resume) = false).
  { destruct (throws (build_of w s resume)) eqn:E; [|reflexivity].
    apply (throws_iff w s0 s H R resume) in E as (z & E & _). congruence. }
  unfold value_or_throw_in, throw_bad_access. rewrite N. cbn [checks resumed build_of].
  destruct (s0 "NDEBUG") as [d|] eqn:D.
  - rewrite (effect_release w s0 s H R V) by congruence. destruct (family_of s0); reflexivity.
  - rewrite (effect_reports w s0 s H R V D U). cbn [false_check].
    destruct (family_of s0), resume; reflexivity.
Qed.
