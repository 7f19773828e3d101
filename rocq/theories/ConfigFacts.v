(** Proofs about the configuration part of the header. *)

From Coq Require Import ZArith String List Bool Lia ZifyBool.
Import ListNotations.
From Verif Require Import Preproc Config ConfigSpec.
Open Scope Z_scope.
Open Scope string_scope.
Open Scope list_scope.

(** Names that a piece of code defines itself. *)
Fixpoint defines (c : code) : list string :=
  match c with
  | Then a b => defines a ++ defines b
  | If _ a b => defines a ++ defines b
  | Define n _ => [n]
  | _ => []
  end.

Definition mentions (n : string) (l : list string) : bool := existsb (String.eqb n) l.

Lemma mentions_app n a b : mentions n (a ++ b) = mentions n a || mentions n b.
Proof. apply existsb_app. Qed.

Lemma mentions_in n l : In n l -> mentions n l = true.
Proof.
  intro H. apply existsb_exists. exists n. split; [exact H|]. apply String.eqb_refl.
Qed.

Ltac in_list := cbn; tauto.

Section Facts.
  Context (w : world).

  (** No file defines the name. *)
  Definition quiet (n : string) : Prop :=
    forall f l b, files w f = Some l -> ~ In (n, b) l.

  Lemma add_all_quiet l : forall s n, (forall b, ~ In (n, b) l) -> add_all s l n = s n.
  Proof.
    induction l as [|[m b] l IH]; intros s n H; [reflexivity|].
    cbn [add_all]. rewrite IH.
    - unfold define. destruct (String.eqb_spec m n) as [->|]; [|reflexivity].
      exfalso. apply (H b). left. reflexivity.
    - intros c Hc. apply (H c). right. exact Hc.
  Qed.

  Lemma add_all_final l : forall s n, add_all s l n = final l n (s n).
  Proof.
    induction l as [|[m b] l IH]; intros s n; [reflexivity|].
    cbn [add_all final]. rewrite IH. reflexivity.
  Qed.

  Lemma include_quiet s s' f n : quiet n -> include w s f = Done s' -> s' n = s n.
  Proof.
    unfold include. intros Q. destruct (files w f) as [l|] eqn:E; [|discriminate].
    intros [= <-]. apply add_all_quiet. intro b. apply (Q f l b E).
  Qed.

  Lemma frame c : forall s s' n,
    quiet n -> mentions n (defines c) = false -> run w c s = Done s' -> s' n = s n.
  Proof.
    induction c; intros s s' m Q M R; cbn [run defines] in *.
    - congruence.
    - rewrite mentions_app in M. apply orb_false_iff in M as [M1 M2].
      destruct (run w c1 s) as [t|] eqn:E; [|discriminate]. cbn [bind] in R.
      rewrite (IHc2 _ _ _ Q M2 R). apply (IHc1 _ _ _ Q M1 E).
    - unfold add in R. cbn in M. rewrite orb_false_r in M.
      destruct (s n) eqn:E.
      + destruct (body_eqb _ _); [congruence|discriminate].
      + injection R as <-. unfold define. rewrite String.eqb_sym, M. reflexivity.
    - apply (include_quiet _ _ _ _ Q R).
    - destruct (s n) as [[]|]; try discriminate. apply (include_quiet _ _ _ _ Q R).
    - discriminate.
    - rewrite mentions_app in M. apply orb_false_iff in M as [M1 M2].
      destruct (evaluate w s c1) as [z|]; [|discriminate].
      destruct (holds z); eauto.
  Qed.

  Lemma keeps c : forall s s' n b,
    quiet n -> run w c s = Done s' -> s n = Some b -> s' n = Some b.
  Proof.
    induction c; intros s s' m b0 Q R H; cbn [run] in *.
    - congruence.
    - destruct (run w c1 s) as [t|] eqn:E; [|discriminate]. cbn [bind] in R. eauto.
    - unfold add in R. destruct (s n) eqn:E.
      + destruct (body_eqb _ _); [congruence|discriminate].
      + injection R as <-. unfold define. destruct (String.eqb_spec n m); congruence.
    - rewrite (include_quiet _ _ _ _ Q R). exact H.
    - destruct (s n) as [[]|]; try discriminate. rewrite (include_quiet _ _ _ _ Q R). exact H.
    - discriminate.
    - destruct (evaluate w s c1) as [z|]; [|discriminate].
      destruct (holds z); eauto.
  Qed.

  (** The header as a list of parts. *)
  Fixpoint run_list (l : list code) (s : macros) : result :=
    match l with
    | [] => Done s
    | c :: l => bind (run w c s) (run_list l)
    end.

  Definition parts : list code :=
    [compilers; libraries; has_attribute; has_cpp_attribute; has_builtin; lifetimebound; pure;
     sanitize; no_sanitize; quiet_nan; pfr; builtin_traits; libassert_path; libassert;
     verify_macro; version; is_cxx20; constexpr_cxx20; current_function; empty_bases;
     reflect_enum; consumed; annotations; forward; forward_std; memory; addressof].

  Fixpoint seq (l : list code) : code :=
    match l with
    | [] => Skip
    | c :: l => match l with [] => c | _ => Then c (seq l) end
    end.

  Lemma run_seq l : forall s, run w (seq l) s = run_list l s.
  Proof.
    induction l as [|c l IH]; intro s; [reflexivity|].
    cbn [seq run_list]. destruct l as [|d l].
    - destruct (run w c s); reflexivity.
    - change (run w (Then c (seq (d :: l))) s) with (bind (run w c s) (run w (seq (d :: l)))).
      destruct (run w c s); [apply IH|reflexivity].
  Qed.

  Lemma header_parts s : run w header s = run_list parts s.
  Proof. rewrite <- run_seq. reflexivity. Qed.

  Lemma run_list_app a : forall b s, run_list (a ++ b) s = bind (run_list a s) (run_list b).
  Proof.
    induction a as [|c a IH]; intros b s; [reflexivity|].
    cbn [app run_list]. destruct (run w c s); [apply IH|reflexivity].
  Qed.

  Definition defines_list (l : list code) : list string := flat_map defines l.

  Lemma frame_list l : forall s s' n,
    quiet n -> mentions n (defines_list l) = false -> run_list l s = Done s' -> s' n = s n.
  Proof.
    induction l as [|c l IH]; intros s s' n Q M R; cbn [run_list defines_list flat_map] in *.
    - congruence.
    - rewrite mentions_app in M. apply orb_false_iff in M as [M1 M2].
      destruct (run w c s) as [t|] eqn:E; [|discriminate]. cbn [bind] in R.
      rewrite (IH _ _ _ Q M2 R). apply (frame _ _ _ _ Q M1 E).
  Qed.

  Lemma keeps_list l : forall s s' n b,
    quiet n -> run_list l s = Done s' -> s n = Some b -> s' n = Some b.
  Proof.
    induction l as [|c l IH]; intros s s' n b Q R H; cbn [run_list] in *.
    - congruence.
    - destruct (run w c s) as [t|] eqn:E; [|discriminate]. cbn [bind] in R.
      eapply IH; eauto. eapply keeps; eauto.
  Qed.

  (** A part in the middle: what came before, and what comes after. *)
  Lemma split_at p c l s s' :
    run_list (p ++ c :: l) s = Done s' ->
    exists a b, run_list p s = Done a /\ run w c a = Done b /\ run_list l b = Done s'.
  Proof.
    rewrite run_list_app. intro R.
    destruct (run_list p s) as [a|]; [|discriminate]. cbn [bind run_list] in R.
    destruct (run w c a) as [b|] eqn:Eb; [|discriminate]. cbn [bind] in R.
    exists a, b. auto.
  Qed.

  Lemma progress l : forall s,
    (forall k c a, nth_error l k = Some c -> run_list (firstn k l) s = Done a ->
       exists b, run w c a = Done b) ->
    exists s', run_list l s = Done s'.
  Proof.
    induction l as [|c l IH]; intros s H; [exists s; reflexivity|].
    destruct (H 0%nat c s eq_refl eq_refl) as [b Hb].
    cbn [run_list]. rewrite Hb. cbn [bind]. apply IH.
    intros k d a E R. apply (H (S k) d a E). cbn [firstn run_list]. rewrite Hb. exact R.
  Qed.

  (** Code that includes nothing. *)
  Fixpoint no_files (c : code) : bool :=
    match c with
    | Then a b => no_files a && no_files b
    | If _ a b => no_files a && no_files b
    | Include _ | IncludeOf _ => false
    | _ => true
    end.

  Lemma frame_alone c : forall s s' n,
    no_files c = true -> mentions n (defines c) = false -> run w c s = Done s' -> s' n = s n.
  Proof.
    induction c; intros s s' m Q M R; cbn [run defines no_files] in *.
    - congruence.
    - rewrite mentions_app in M. apply orb_false_iff in M as [M1 M2].
      apply andb_true_iff in Q as [Q1 Q2].
      destruct (run w c1 s) as [t|] eqn:E; [|discriminate]. cbn [bind] in R.
      rewrite (IHc2 _ _ _ Q2 M2 R). apply (IHc1 _ _ _ Q1 M1 E).
    - unfold add in R. cbn in M. rewrite orb_false_r in M.
      destruct (s n) eqn:E.
      + destruct (body_eqb _ _); [congruence|discriminate].
      + injection R as <-. unfold define. rewrite String.eqb_sym, M. reflexivity.
    - discriminate.
    - discriminate.
    - discriminate.
    - rewrite mentions_app in M. apply orb_false_iff in M as [M1 M2].
      apply andb_true_iff in Q as [Q1 Q2].
      destruct (evaluate w s c1) as [z|]; [|discriminate].
      destruct (holds z); eauto.
  Qed.

  Lemma frame_none l : forall s s' n,
    forallb no_files l = true -> mentions n (defines_list l) = false ->
    run_list l s = Done s' -> s' n = s n.
  Proof.
    induction l as [|c l IH]; intros s s' n Q M R; cbn [run_list defines_list flat_map forallb] in *.
    - congruence.
    - rewrite mentions_app in M. apply orb_false_iff in M as [M1 M2].
      apply andb_true_iff in Q as [Q1 Q2].
      destruct (run w c s) as [t|] eqn:E; [|discriminate]. cbn [bind] in R.
      rewrite (IH _ _ _ Q2 M2 R). apply (frame_alone _ _ _ _ Q1 M1 E).
  Qed.

  Section Setting.
    Context (s0 : macros) (Hs : setting w s0).

    Lemma ours_quiet n : ours n -> quiet n.
    Proof.
      intros O f l b E I. destruct Hs as (_ & P & _). destruct (P f l n b E I) as [A B]; auto.
    Qed.

    Lemma platform_quiet n : In n platform -> quiet n.
    Proof.
      intros O f l b E I. destruct Hs as (_ & P & _). destruct (P f l n b E I) as [A B]; auto.
    Qed.

    Lemma ours_fresh n : ours n -> mentions n documented = false -> s0 n = None.
    Proof.
      intros O M. destruct Hs as (C & _). destruct (s0 n) eqn:E; [|reflexivity].
      rewrite (mentions_in n documented) in M; [discriminate|].
      apply (C n O). congruence.
    Qed.

    Lemma before p a n :
      run_list p s0 = Done a -> quiet n -> mentions n (defines_list p) = false -> a n = s0 n.
    Proof. intros R Q M. apply (frame_list p _ _ _ Q M R). Qed.

    Lemma fresh p a n :
      run_list p s0 = Done a -> ours n -> mentions n (defines_list p ++ documented) = false ->
      a n = None.
    Proof.
      intros R O M. rewrite mentions_app in M. apply orb_false_iff in M as [M1 M2].
      rewrite (before p a n R (ours_quiet n O) M1). apply ours_fresh; assumption.
    Qed.

    Ltac known a R :=
      repeat match goal with
        | H : a ?n = _ |- context [a ?n] => rewrite H
        | |- context [a ?n] =>
            first [ rewrite (fresh _ a n R eq_refl eq_refl)
                  | rewrite (before _ a n R (ours_quiet n eq_refl) eq_refl)
                  | rewrite (before _ a n R (platform_quiet n ltac:(in_list)) eq_refl) ]
        end.
    Ltac go a R := repeat (progress (cbn -[firstn parts]; unfold add, define; known a R)).
    Ltac finish := eexists; split; [reflexivity|]; repeat split; reflexivity.

    (** What the compiler is. *)
    Definition clang_flag (f : family) : Z := match f with Clang | ClangCl => 1 | _ => 0 end.
    Definition gcc_flag (f : family) : Z := match f with Gcc => 1 | _ => 0 end.
    Definition msvc_flag (f : family) : Z := match f with Msvc | ClangCl => 1 | _ => 0 end.
    Definition intel_flag (f : family) : Z := match f with Intel => 1 | _ => 0 end.

    Lemma run_compilers :
      exists b, run w compilers s0 = Done b /\
        b "OPTION_CLANG" = Some (Num (clang_flag (family_of s0))) /\
        b "OPTION_GCC" = Some (Num (gcc_flag (family_of s0))) /\
        b "OPTION_MSVC" = Some (Num (msvc_flag (family_of s0))) /\
        b "OPTION_INTEL" = Some (Num (intel_flag (family_of s0))).
    Proof.
      pose proof (ours_fresh "OPTION_CLANG" eq_refl eq_refl) as H1.
      pose proof (ours_fresh "OPTION_GCC" eq_refl eq_refl) as H2.
      pose proof (ours_fresh "OPTION_MSVC" eq_refl eq_refl) as H3.
      pose proof (ours_fresh "OPTION_INTEL" eq_refl eq_refl) as H4.
      unfold compilers, four, flag, family_of, IfDef. cbn [run evaluate].
      destruct (s0 "__INTEL_COMPILER") eqn:E1; cbn -[String.eqb];
        [|destruct (s0 "_MSC_VER") eqn:E2; cbn -[String.eqb];
          [destruct (s0 "__clang__") eqn:E3; cbn -[String.eqb]|
           destruct (s0 "__clang__") eqn:E3; cbn -[String.eqb];
           [|destruct (s0 "__GNUC__") eqn:E4, (s0 "__GNUG__") eqn:E5; cbn -[String.eqb]]]];
        unfold add, define; rewrite ?H1, ?H2, ?H3, ?H4; cbn;
        rewrite ?H1, ?H2, ?H3, ?H4; cbn; rewrite ?H1, ?H2, ?H3, ?H4; cbn;
        rewrite ?H1, ?H2, ?H3, ?H4; cbn;
        eexists; (split; [reflexivity|]); repeat split; reflexivity.
    Qed.

    Lemma run_libraries a :
      run_list (firstn 1 parts) s0 = Done a ->
      exists b, run w libraries a = Done b /\
        b "OPTION_LIBCPP" = Some (Num match library_of s0 with LibCpp => 1 | _ => 0 end) /\
        b "OPTION_LIBSTDCPP" = Some (Num match library_of s0 with LibStdCpp => 1 | _ => 0 end) /\
        b "OPTION_STL" = Some (Num match library_of s0 with Stl => 1 | _ => 0 end) /\
        b "OPTION_UNKNOWN_STD" = Some (Num match library_of s0 with NoLibrary => 1 | _ => 0 end).
    Proof.
      intro R. unfold libraries, library_flags, flag, library_of. cbn -[String.eqb firstn]. known a R.
      destruct (s0 "_LIBCPP_VERSION"); [|destruct (s0 "__GLIBCXX__"); [|destruct (s0 "_MSC_VER")]];
        go a R; finish.
    Qed.

    Lemma value_at p c l s' n v :
      run_list (p ++ c :: l) s0 = Done s' -> quiet n ->
      (forall a, run_list p s0 = Done a -> exists b, run w c a = Done b /\ b n = Some v) ->
      s' n = Some v.
    Proof.
      intros R Q H. destruct (split_at _ _ _ _ _ R) as (a & b & Ra & Rc & Rl).
      destruct (H a Ra) as (b' & E & V). rewrite Rc in E. injection E as <-.
      apply (keeps_list l _ _ _ _ Q Rl V).
    Qed.

    Lemma know_compilers l s' :
      run_list (firstn 1 parts ++ l) s0 = Done s' ->
      s' "OPTION_CLANG" = Some (Num (clang_flag (family_of s0))) /\
      s' "OPTION_GCC" = Some (Num (gcc_flag (family_of s0))) /\
      s' "OPTION_MSVC" = Some (Num (msvc_flag (family_of s0))) /\
      s' "OPTION_INTEL" = Some (Num (intel_flag (family_of s0))).
    Proof.
      intro R. destruct run_compilers as (b & E & H1 & H2 & H3 & H4).
      repeat split; (refine (value_at [] compilers l _ _ _ R (ours_quiet _ _) _);
        [reflexivity|intros a [= <-]; exists b; auto]).
    Qed.

    Lemma know_libraries l s' :
      run_list (firstn 2 parts ++ l) s0 = Done s' ->
      s' "OPTION_LIBCPP" = Some (Num match library_of s0 with LibCpp => 1 | _ => 0 end) /\
      s' "OPTION_LIBSTDCPP" = Some (Num match library_of s0 with LibStdCpp => 1 | _ => 0 end) /\
      s' "OPTION_STL" = Some (Num match library_of s0 with Stl => 1 | _ => 0 end) /\
      s' "OPTION_UNKNOWN_STD" = Some (Num match library_of s0 with NoLibrary => 1 | _ => 0 end).
    Proof.
      intro R.
      repeat split; (refine (value_at (firstn 1 parts) libraries l _ _ _ R (ours_quiet _ _) _);
        [reflexivity|
         intros a Ra; destruct (run_libraries a Ra) as (b & E & H1 & H2 & H3 & H4);
         exists b; auto]).
    Qed.

    (** The operators of the preprocessor. *)
    Definition has_body (n : string) : body :=
      match s0 n with Some _ => Forward n | None => Const 0 end.

    Lemma run_has_attribute a :
      run_list (firstn 2 parts) s0 = Done a ->
      exists b, run w has_attribute a = Done b /\
        b "OPTION_HAS_ATTRIBUTE" = Some (has_body "__has_attribute").
    Proof.
      intro R. unfold has_attribute, IfDef, has_body. go a R.
      destruct (s0 "__has_attribute"); go a R; finish.
    Qed.

    Lemma run_has_cpp_attribute a :
      run_list (firstn 3 parts) s0 = Done a ->
      exists b, run w has_cpp_attribute a = Done b /\
        b "OPTION_HAS_CPP_ATTRIBUTE" = Some (has_body "__has_cpp_attribute").
    Proof.
      intro R. unfold has_cpp_attribute, IfDef, has_body. go a R.
      destruct (s0 "__has_cpp_attribute"); go a R; finish.
    Qed.

    Lemma run_has_builtin a :
      run_list (firstn 4 parts) s0 = Done a ->
      exists b, run w has_builtin a = Done b /\
        b "OPTION_HAS_BUILTIN" = Some (has_body "__has_builtin").
    Proof.
      intro R. unfold has_builtin, IfDef, has_body. go a R.
      destruct (s0 "__has_builtin"); go a R; finish.
    Qed.

    (** Asking for an attribute or a builtin. *)
    Definition asked (op arg : string) : Z :=
      match s0 op with Some _ => answers w op arg | None => 0 end.

    Lemma call_asked a f op arg :
      a f = Some (has_body op) -> a op = s0 op -> operator (s0 op) ->
      call w a f arg = Some (asked op arg).
    Proof.
      intros H1 H2 O. unfold call, asked. rewrite H1. unfold has_body.
      destruct (s0 op) as [[]|] eqn:E; cbn in O; try contradiction; [|reflexivity].
      rewrite H2. reflexivity.
    Qed.

    Lemma operators_ok :
      operator (s0 "__has_attribute") /\ operator (s0 "__has_cpp_attribute") /\
      operator (s0 "__has_builtin") /\ operator (s0 "__has_feature").
    Proof. destruct Hs as (_ & _ & O & _). unfold ordinary in O. intuition. Qed.

    Lemma before_app p l a n :
      run_list (p ++ l) s0 = Done a -> quiet n -> mentions n (defines_list p) = false ->
      mentions n (defines_list l) = false -> a n = s0 n.
    Proof.
      intros R Q M N. apply (before _ _ _ R Q).
      unfold defines_list. rewrite flat_map_app, mentions_app.
      apply orb_false_iff. split; assumption.
    Qed.

    Lemma ask_attribute l a arg :
      run_list (firstn 3 parts ++ l) s0 = Done a ->
      mentions "__has_attribute" (defines_list l) = false ->
      call w a "OPTION_HAS_ATTRIBUTE" arg = Some (asked "__has_attribute" arg).
    Proof.
      intros R M. apply call_asked; [| |apply operators_ok].
      - refine (value_at (firstn 2 parts) has_attribute l _ _ _ R (ours_quiet _ _) _);
          [reflexivity|apply run_has_attribute].
      - apply (before_app _ _ _ _ R); [apply platform_quiet; in_list|reflexivity|exact M].
    Qed.

    Lemma ask_cpp_attribute l a arg :
      run_list (firstn 4 parts ++ l) s0 = Done a ->
      mentions "__has_cpp_attribute" (defines_list l) = false ->
      call w a "OPTION_HAS_CPP_ATTRIBUTE" arg = Some (asked "__has_cpp_attribute" arg).
    Proof.
      intros R M. apply call_asked; [| |apply operators_ok].
      - refine (value_at (firstn 3 parts) has_cpp_attribute l _ _ _ R (ours_quiet _ _) _);
          [reflexivity|apply run_has_cpp_attribute].
      - apply (before_app _ _ _ _ R); [apply platform_quiet; in_list|reflexivity|exact M].
    Qed.

    Lemma ask_builtin l a arg :
      run_list (firstn 5 parts ++ l) s0 = Done a ->
      mentions "__has_builtin" (defines_list l) = false ->
      call w a "OPTION_HAS_BUILTIN" arg = Some (asked "__has_builtin" arg).
    Proof.
      intros R M. apply call_asked; [| |apply operators_ok].
      - refine (value_at (firstn 4 parts) has_builtin l _ _ _ R (ours_quiet _ _) _);
          [reflexivity|apply run_has_builtin].
      - apply (before_app _ _ _ _ R); [apply platform_quiet; in_list|reflexivity|exact M].
    Qed.

    Lemma run_lifetimebound a :
      run_list (firstn 5 parts) s0 = Done a ->
      exists b, run w lifetimebound a = Done b /\ is_some (b "OPTION_LIFETIMEBOUND") = true.
    Proof.
      intro R.
      pose proof (ask_cpp_attribute [has_builtin] a "msvc::lifetimebound" R eq_refl) as B.
      pose proof (ask_cpp_attribute [has_builtin] a "clang::lifetimebound" R eq_refl) as C.
      pose proof (fresh _ a "OPTION_LIFETIMEBOUND" R eq_refl eq_refl) as F1.
      unfold lifetimebound. cbn [run evaluate]. rewrite B, C. unfold add. rewrite F1.
      destruct (holds _); [|destruct (holds _)]; finish.
    Qed.

    Lemma run_pure a :
      run_list (firstn 6 parts) s0 = Done a ->
      exists b, run w pure a = Done b /\ is_some (b "OPTION_PURE") = true.
    Proof.
      intro R.
      pose proof (ask_attribute (skipn 3 (firstn 6 parts)) a "pure" R eq_refl) as B.
      destruct (know_compilers (skipn 1 (firstn 6 parts)) a R) as (_ & _ & M & _).
      pose proof (fresh _ a "OPTION_PURE" R eq_refl eq_refl) as F1.
      unfold pure. cbn [run evaluate]. unfold value_of. rewrite B, M. unfold add. rewrite F1.
      destruct (holds _); [|destruct (holds _)]; finish.
    Qed.

    Definition object_size_checked : bool :=
      is_some (s0 "__has_feature") && holds (clang_flag (family_of s0)) &&
      holds (answers w "__has_feature" "undefined_behavior_sanitizer").

    Lemma run_sanitize a :
      run_list (firstn 7 parts) s0 = Done a ->
      exists b, run w sanitize a = Done b /\
        (if object_size_checked
         then is_some (b "OPTION_NO_SANITIZE_OBJECT_SIZE") = true /\
              b "OPTION_HAS_NO_SANITIZE_OBJECT_SIZE" = Some (Num 1)
         else b "OPTION_NO_SANITIZE_OBJECT_SIZE" = None /\
              b "OPTION_HAS_NO_SANITIZE_OBJECT_SIZE" = None).
    Proof.
      intro R. destruct (know_compilers (skipn 1 (firstn 7 parts)) a R) as (C & _).
      pose proof (fresh _ a "OPTION_NO_SANITIZE_OBJECT_SIZE" R eq_refl eq_refl) as F1.
      pose proof (fresh _ a "OPTION_HAS_NO_SANITIZE_OBJECT_SIZE" R eq_refl eq_refl) as F2.
      assert (E : a "__has_feature" = s0 "__has_feature").
      { apply (before _ _ _ R); [apply platform_quiet; in_list|reflexivity]. }
      destruct operators_ok as (_ & _ & _ & O).
      unfold sanitize, flag, object_size_checked. cbn [run evaluate]. unfold value_of, call.
      rewrite C, E.
      destruct (s0 "__has_feature") as [[]|]; try contradiction; cbn [is_some truth lift2 andb].
      - destruct (holds (clang_flag (family_of s0))); cbn [truth andb holds negb Z.eqb].
        + destruct (holds (answers w _ _)).
          * unfold add. rewrite F1. cbn. rewrite F2. finish.
          * exists a. auto.
        + exists a. auto.
      - exists a. auto.
    Qed.

    Lemma run_no_sanitize a :
      run_list (firstn 8 parts) s0 = Done a ->
      exists b, run w no_sanitize a = Done b /\
        is_some (b "OPTION_NO_SANITIZE_OBJECT_SIZE") = true /\
        b "OPTION_HAS_NO_SANITIZE_OBJECT_SIZE" = Some (Num (truth object_size_checked)).
    Proof.
      intro R. destruct (split_at (firstn 7 parts) sanitize [] _ _ R) as (t & b & Rt & Rb & [= ->]).
      destruct (run_sanitize t Rt) as (b' & E & H). rewrite E in Rb. injection Rb as <-.
      unfold no_sanitize, IfNDef, flag. cbn [run evaluate].
      destruct object_size_checked; destruct H as [H1 H2].
      - rewrite H1. cbn. exists b'. auto.
      - rewrite H1. cbn. unfold add. rewrite H1. cbn. rewrite H2. finish.
    Qed.

    (** Settings with a default. *)
    Definition setting_of (n : string) (z : Z) : body :=
      match s0 n with Some b => b | None => Num z end.

    Lemma run_default p a n z :
      run_list p s0 = Done a -> ours n -> mentions n (defines_list p) = false ->
      exists b, run w (default n z) a = Done b /\ b n = Some (setting_of n z).
    Proof.
      intros R O M. pose proof (before _ _ _ R (ours_quiet n O) M) as E.
      unfold default, IfNDef, flag, setting_of. cbn [run evaluate]. rewrite E.
      destruct (s0 n) as [v|] eqn:V; cbn.
      - exists a. auto.
      - unfold add. rewrite E. eexists. split; [reflexivity|].
        unfold define. rewrite String.eqb_refl. reflexivity.
    Qed.

    (** The libraries for aggregates. *)
    Definition boost : option body * option body := (Some (Text ""), Some (Text "::boost::pfr::")).
    Definition standalone : option body * option body := (Some (Text ""), Some (Text "::pfr::")).

    Definition pfr_result : option body * option body :=
      match s0 "OPTION_USE_PFR" with
      | Some _ =>
          if on (s0 "OPTION_USE_PFR") then
            match s0 "OPTION_PFR_FILE" with
            | Some (File f) =>
                if is_some (after w s0 f "BOOST_PFR_ENABLED")
                then if on (after w s0 f "BOOST_PFR_ENABLED") then boost else (None, None)
                else if on (after w s0 f "PFR_ENABLED") then standalone else (None, None)
            | _ => (None, None)
            end
          else (None, None)
      | None =>
          match s0 "OPTION_PFR_FILE" with
          | Some (File f) =>
              if is_some (files w f) && on (after w s0 f "BOOST_PFR_ENABLED")
              then (Some (Text ""), None) else (None, None)
          | Some _ => (None, None)
          | None =>
              if is_some (files w "boost/pfr.hpp")
              then if on (after w s0 "boost/pfr.hpp" "BOOST_PFR_ENABLED") then boost else (None, None)
              else if is_some (files w "pfr.hpp")
              then if on (after w s0 "pfr.hpp" "PFR_ENABLED") then standalone else (None, None)
              else (None, None)
          end
      end.

    Lemma before_files p a n :
      run_list p s0 = Done a -> forallb no_files p = true -> mentions n (defines_list p) = false ->
      a n = s0 n.
    Proof. intros R F M. apply (frame_none p _ _ _ F M R). Qed.

    Lemma on_value (x : option body) s n :
      s n = x -> numeric x -> exists z, value_of s n = Some z /\ holds z = on x.
    Proof.
      intros <- H. unfold value_of, on. destruct (s n) as [[]|]; cbn in H; try contradiction.
      - eexists. split; reflexivity.
      - eexists. split; reflexivity.
    Qed.

    Lemma run_pfr a :
      accepted w s0 -> run_list (firstn 10 parts) s0 = Done a ->
      exists b, run w pfr a = Done b /\
        (b "OPTION_HAS_PFR", b "OPTION_PFR_NAMESPACE") = pfr_result.
    Proof.
      intros [Acc _] R.
      pose proof (fresh _ a "OPTION_HAS_PFR" R eq_refl eq_refl) as F1.
      pose proof (fresh _ a "OPTION_PFR_NAMESPACE" R eq_refl eq_refl) as F2.
      pose proof (before _ a "OPTION_USE_PFR" R (ours_quiet "OPTION_USE_PFR" eq_refl) eq_refl) as U.
      pose proof (before _ a "OPTION_PFR_FILE" R (ours_quiet "OPTION_PFR_FILE" eq_refl) eq_refl) as P.
      pose proof (before_files _ a "BOOST_PFR_ENABLED" R eq_refl eq_refl) as B.
      pose proof (before_files _ a "PFR_ENABLED" R eq_refl eq_refl) as S.
      assert (Sw : switches w s0) by apply Hs.
      assert (NU : numeric (s0 "OPTION_USE_PFR"))
        by (destruct Hs as (_ & _ & O & _); unfold ordinary in O; tauto).
      assert (NP : path (s0 "OPTION_PFR_FILE"))
        by (destruct Hs as (_ & _ & O & _); unfold ordinary in O; tauto).
      assert (Inc : forall f, files w f <> None -> exists t, include w a f = Done t /\
                t "BOOST_PFR_ENABLED" = after w s0 f "BOOST_PFR_ENABLED" /\
                t "PFR_ENABLED" = after w s0 f "PFR_ENABLED" /\
                t "OPTION_HAS_PFR" = None /\ t "OPTION_PFR_NAMESPACE" = None).
      { intros f H. unfold include, after. destruct (files w f) as [l|] eqn:E; [|contradiction].
        eexists. split; [reflexivity|]. rewrite !add_all_final, B, S. repeat split.
        - rewrite <- add_all_final. rewrite add_all_quiet; [exact F1|].
          intros b. apply (ours_quiet "OPTION_HAS_PFR" eq_refl f l b E).
        - rewrite <- add_all_final. rewrite add_all_quiet; [exact F2|].
          intros b. apply (ours_quiet "OPTION_PFR_NAMESPACE" eq_refl f l b E). }
      unfold pfr, pfr_result, IfDef. cbn [run evaluate]. rewrite U.
      destruct (s0 "OPTION_USE_PFR") as [u|] eqn:EU; cbn [is_some truth holds Z.eqb negb].
      - destruct (on_value (Some u) a "OPTION_USE_PFR" U NU) as (z & Ez & Hz). rewrite Ez, Hz.
        destruct (on (Some u)) eqn:O.
        + destruct (Acc eq_refl) as (f & Ef & Ff & D). rewrite P, Ef.
          destruct (Inc f Ff) as (t & It & T1 & T2 & T3 & T4).
          replace (is_some (files w f)) with true by (destruct (files w f); [reflexivity|contradiction]).
          cbn [truth holds Z.eqb negb]. rewrite It. cbn [bind]. rewrite T1, T2.
          destruct (Sw f) as [S1 S2].
          destruct (after w s0 f "BOOST_PFR_ENABLED") as [v|] eqn:V; cbn [is_some truth holds Z.eqb negb].
          * destruct (on_value (Some v) t "BOOST_PFR_ENABLED" T1 S1) as (y & Ey & Hy).
            rewrite Ey, Hy. destruct (on (Some v)).
            -- unfold use_boost. cbn [run bind]. unfold add. rewrite T3. cbn. rewrite T4.
               eexists. split; reflexivity.
            -- eexists. split; [reflexivity|]. rewrite T3, T4. reflexivity.
          * destruct (after w s0 f "PFR_ENABLED") as [v|] eqn:V2; cbn [is_some truth holds Z.eqb negb].
            -- destruct (on_value (Some v) t "PFR_ENABLED" T2 S2) as (y & Ey & Hy).
               rewrite Ey, Hy. destruct (on (Some v)).
               ++ unfold use_standalone. cbn [run bind]. unfold add. rewrite T3. cbn. rewrite T4.
                  eexists. split; reflexivity.
               ++ eexists. split; [reflexivity|]. rewrite T3, T4. reflexivity.
            -- exfalso. destruct D; congruence.
        + exists a. rewrite F1, F2. split; reflexivity.
      - rewrite P. destruct (s0 "OPTION_PFR_FILE") as [[]|] eqn:EP; cbn in NP; try contradiction.
        + cbn [is_some truth holds Z.eqb negb].
          destruct (is_some (files w f)) eqn:Ff; cbn [truth holds Z.eqb negb andb].
          * assert (Ff' : files w f <> None) by (destruct (files w f); [discriminate|discriminate]).
            destruct (Inc f Ff') as (t & It & T1 & T2 & T3 & T4). rewrite It. cbn [bind].
            destruct (Sw f) as [S1 S2].
            destruct (on_value _ t "BOOST_PFR_ENABLED" T1 S1) as (y & Ey & Hy).
            rewrite Ey, Hy. match goal with |- context [if on ?x then _ else _] => destruct (on x) end.
            -- unfold add. rewrite T3. cbn. eexists. split; [reflexivity|]. cbn. rewrite T4. reflexivity.
            -- eexists. split; [reflexivity|]. rewrite T3, T4. reflexivity.
          * exists a. rewrite F1, F2. split; reflexivity.
        + cbn [is_some truth holds Z.eqb negb].
          destruct (is_some (files w "boost/pfr.hpp")) eqn:Ff; cbn [truth holds Z.eqb negb].
          * assert (Ff' : files w "boost/pfr.hpp" <> None) by (destruct (files w "boost/pfr.hpp"); [discriminate|discriminate]).
            destruct (Inc _ Ff') as (t & It & T1 & T2 & T3 & T4). rewrite It. cbn [bind].
            destruct (Sw "boost/pfr.hpp") as [S1 S2].
            destruct (on_value _ t "BOOST_PFR_ENABLED" T1 S1) as (y & Ey & Hy).
            rewrite Ey, Hy. match goal with |- context [if on ?x then _ else _] => destruct (on x) end.
            -- unfold use_boost. cbn [run bind]. unfold add. rewrite T3. cbn. rewrite T4.
               eexists. split; reflexivity.
            -- eexists. split; [reflexivity|]. rewrite T3, T4. reflexivity.
          * destruct (is_some (files w "pfr.hpp")) eqn:Fp; cbn [truth holds Z.eqb negb].
            -- assert (Ff' : files w "pfr.hpp" <> None) by (destruct (files w "pfr.hpp"); [discriminate|discriminate]).
               destruct (Inc _ Ff') as (t & It & T1 & T2 & T3 & T4). rewrite It. cbn [bind].
               destruct (Sw "pfr.hpp") as [S1 S2].
               destruct (on_value _ t "PFR_ENABLED" T2 S2) as (y & Ey & Hy).
               rewrite Ey, Hy. match goal with |- context [if on ?x then _ else _] => destruct (on x) end.
               ++ unfold use_standalone. cbn [run bind]. unfold add. rewrite T3. cbn. rewrite T4.
                  eexists. split; reflexivity.
               ++ eexists. split; [reflexivity|]. rewrite T3, T4. reflexivity.
            -- exists a. rewrite F1, F2. split; reflexivity.
    Qed.

    (** Conversely: if the part is accepted then what the user asked for is there. *)
    Lemma pfr_only a b :
      run_list (firstn 10 parts) s0 = Done a -> run w pfr a = Done b ->
      on (s0 "OPTION_USE_PFR") = true ->
      exists f, s0 "OPTION_PFR_FILE" = Some (File f) /\ files w f <> None /\
        (after w s0 f "BOOST_PFR_ENABLED" <> None \/ after w s0 f "PFR_ENABLED" <> None).
    Proof.
      intros R H O.
      pose proof (before _ a "OPTION_USE_PFR" R (ours_quiet "OPTION_USE_PFR" eq_refl) eq_refl) as U.
      pose proof (before _ a "OPTION_PFR_FILE" R (ours_quiet "OPTION_PFR_FILE" eq_refl) eq_refl) as P.
      pose proof (before_files _ a "BOOST_PFR_ENABLED" R eq_refl eq_refl) as B.
      pose proof (before_files _ a "PFR_ENABLED" R eq_refl eq_refl) as S.
      unfold pfr, IfDef in H. cbn [run evaluate] in H. unfold value_of at 1 in H. rewrite U in H.
      destruct (s0 "OPTION_USE_PFR") as [[]|] eqn:EU; cbn [on] in O; try discriminate.
      cbn [is_some truth holds Z.eqb negb] in H. unfold holds at 1 in H. rewrite O in H. rewrite P in H.
      destruct (s0 "OPTION_PFR_FILE") as [[]|]; try discriminate.
      exists f. split; [reflexivity|]. unfold include, after in *.
      destruct (files w f) as [l|] eqn:F; [|discriminate].
      split; [discriminate|].
      cbn [is_some truth holds Z.eqb negb bind] in H. rewrite !add_all_final, B, S in H.
      destruct (final l "BOOST_PFR_ENABLED" _); [left; discriminate|].
      destruct (final l "PFR_ENABLED" _); [right; discriminate|].
      discriminate.
    Qed.

    (** libassert. *)
    Lemma run_libassert_path a :
      run_list (firstn 12 parts) s0 = Done a ->
      exists b, run w libassert_path a = Done b /\
        b "OPTION_LIBASSERT_FILE" = Some (File (libassert_file s0)).
    Proof.
      intro R.
      pose proof (before _ a "OPTION_LIBASSERT_FILE" R
                    (ours_quiet "OPTION_LIBASSERT_FILE" eq_refl) eq_refl) as E.
      assert (NP : path (s0 "OPTION_LIBASSERT_FILE"))
        by (destruct Hs as (_ & _ & O & _); unfold ordinary in O; tauto).
      unfold libassert_path, IfNDef, libassert_file. cbn [run evaluate]. rewrite E.
      destruct (s0 "OPTION_LIBASSERT_FILE") as [[]|] eqn:V; cbn in NP; try contradiction; cbn.
      - exists a. auto.
      - unfold add. rewrite E. finish.
    Qed.

    Lemma include_ok a f : files w f <> None ->
      exists t, include w a f = Done t /\ forall n, quiet n -> t n = a n.
    Proof.
      intro H. unfold include. destruct (files w f) as [l|] eqn:E; [|contradiction].
      eexists. split; [reflexivity|]. intros n Q. apply add_all_quiet.
      intro b. apply (Q f l b E).
    Qed.

    Definition libassert_result : option body :=
      if uses_libassert w s0 then Some (Text "") else None.

    Lemma run_libassert a :
      accepted w s0 -> run_list (firstn 13 parts) s0 = Done a ->
      exists b, run w libassert a = Done b /\ b "OPTION_HAS_LIBASSERT" = libassert_result.
    Proof.
      intros [_ Acc] R.
      assert (P : a "OPTION_LIBASSERT_FILE" = Some (File (libassert_file s0))).
      { refine (value_at (firstn 12 parts) libassert_path [] _ _ _ R (ours_quiet _ _) _);
          [reflexivity|apply run_libassert_path]. }
      pose proof (before _ a "OPTION_USE_LIBASSERT" R
                    (ours_quiet "OPTION_USE_LIBASSERT" eq_refl) eq_refl) as U.
      pose proof (fresh _ a "OPTION_HAS_LIBASSERT" R eq_refl eq_refl) as F1.
      assert (NU : numeric (s0 "OPTION_USE_LIBASSERT"))
        by (destruct Hs as (_ & _ & O & _); unfold ordinary in O; tauto).
      assert (Inc : is_some (files w (libassert_file s0)) = true ->
               exists t, include w a (libassert_file s0) = Done t /\ t "OPTION_HAS_LIBASSERT" = None).
      { intro H. destruct (include_ok a (libassert_file s0)) as (t & E & Q).
        - destruct (files w _); [discriminate|discriminate].
        - exists t. split; [exact E|]. rewrite (Q _ (ours_quiet "OPTION_HAS_LIBASSERT" eq_refl)). exact F1. }
      unfold libassert, libassert_result, uses_libassert, off, IfDef. cbn [run evaluate]. rewrite U, P.
      destruct (s0 "OPTION_USE_LIBASSERT") as [u|] eqn:EU; cbn [is_some truth holds Z.eqb negb].
      - destruct (on_value (Some u) a "OPTION_USE_LIBASSERT" U NU) as (z & Ez & Hz). rewrite Ez, Hz.
        cbn [andb]. destruct (on (Some u)) eqn:O; cbn [negb andb].
        + specialize (Acc eq_refl).
          assert (I : is_some (files w (libassert_file s0)) = true)
            by (destruct (files w (libassert_file s0)); [reflexivity|contradiction]).
          destruct (Inc I) as (t & It & T). rewrite I. cbn [truth holds Z.eqb negb].
          rewrite It. cbn [bind]. unfold add. rewrite T. finish.
        + exists a. auto.
      - cbn [andb negb].
        destruct (is_some (files w (libassert_file s0))) eqn:I; cbn [truth holds Z.eqb negb].
        + destruct (Inc eq_refl) as (t & It & T). rewrite It. cbn [bind]. unfold add. rewrite T. finish.
        + exists a. auto.
    Qed.

    Lemma libassert_only a b :
      run_list (firstn 13 parts) s0 = Done a -> run w libassert a = Done b ->
      on (s0 "OPTION_USE_LIBASSERT") = true -> files w (libassert_file s0) <> None.
    Proof.
      intros R H O.
      assert (P : a "OPTION_LIBASSERT_FILE" = Some (File (libassert_file s0))).
      { refine (value_at (firstn 12 parts) libassert_path [] _ _ _ R (ours_quiet _ _) _);
          [reflexivity|apply run_libassert_path]. }
      pose proof (before _ a "OPTION_USE_LIBASSERT" R
                    (ours_quiet "OPTION_USE_LIBASSERT" eq_refl) eq_refl) as U.
      unfold libassert, IfDef in H. cbn [run evaluate] in H. unfold value_of at 1 in H. rewrite U in H.
      destruct (s0 "OPTION_USE_LIBASSERT") as [[]|] eqn:EU; cbn [on] in O; try discriminate.
      cbn [is_some truth holds Z.eqb negb] in H. unfold holds at 1 in H. rewrite O, P in H.
      destruct (files w (libassert_file s0)); [discriminate|]. discriminate.
    Qed.

    (** OPTION_VERIFY. *)
    Definition verify_body : body :=
      match s0 "OPTION_VERIFY" with
      | Some b => b
      | None =>
          Text match s0 "NDEBUG" with
               | None => if uses_libassert w s0 then by_libassert else by_message
               | Some _ =>
                   match family_of s0 with
                   | Msvc | ClangCl => by_assume
                   | Clang => by_builtin_assume
                   | Gcc => if Z.leb 13 (number (s0 "__GNUC__")) then by_attribute else by_unreachable
                   | Intel | Other => by_nothing
                   end
               end
      end.

    Definition reports : bool :=
      negb (is_some (s0 "OPTION_VERIFY")) && negb (is_some (s0 "NDEBUG")) &&
      negb (uses_libassert w s0).

    Lemma verify_header f : In f standard_headers -> files w f <> None.
    Proof. destruct Hs as (_ & _ & _ & H & _). apply H. Qed.

    Lemma run_verify_macro a :
      accepted w s0 -> run_list (firstn 14 parts) s0 = Done a ->
      exists b, run w verify_macro a = Done b /\ b "OPTION_VERIFY" = Some verify_body /\
        (if reports then
           match family_of s0 with
           | Clang | ClangCl => b "OPTION_DEBUG_BREAK" = Some (Text debugtrap)
           | Msvc | Intel => b "OPTION_DEBUG_BREAK" = Some (Text debugbreak)
           | Gcc => b "OPTION_DEBUG_BREAK" = Some (Text trap)
           | Other => b "OPTION_DEBUG_BREAK" = Some (Text raise_trap) \/
                      b "OPTION_DEBUG_BREAK" = Some (Text raise_abort)
           end
         else b "OPTION_DEBUG_BREAK" = None).
    Proof.
      intros Acc R.
      destruct (know_compilers (skipn 1 (firstn 14 parts)) a R) as (C1 & C2 & C3 & C4).
      assert (L : a "OPTION_HAS_LIBASSERT" = libassert_result).
      { destruct (split_at (firstn 13 parts) libassert [] _ _ R) as (t & b & Rt & Rb & [= ->]).
        destruct (run_libassert t Acc Rt) as (b' & E & V). congruence. }
      pose proof (before _ a "OPTION_VERIFY" R (ours_quiet "OPTION_VERIFY" eq_refl) eq_refl) as V.
      pose proof (fresh _ a "OPTION_DEBUG_BREAK" R eq_refl eq_refl) as F1.
      assert (N : a "NDEBUG" = s0 "NDEBUG")
        by (apply (before _ _ _ R); [apply platform_quiet; in_list|reflexivity]).
      assert (G : a "__GNUC__" = s0 "__GNUC__")
        by (apply (before _ _ _ R); [apply platform_quiet; in_list|reflexivity]).
      assert (NG : numeric (s0 "__GNUC__"))
        by (destruct Hs as (_ & _ & O & _); unfold ordinary in O; tauto).
      assert (VG : value_of a "__GNUC__" = Some (number (s0 "__GNUC__"))).
      { unfold value_of. rewrite G.
        destruct (s0 "__GNUC__") as [[]|]; cbn in NG; try contradiction; reflexivity. }
      unfold verify_macro, IfNDef, IfDef, verify_body, reports. cbn [run evaluate]. rewrite V.
      destruct (s0 "OPTION_VERIFY") as [v|] eqn:EV; cbn [is_some truth option_map holds Z.eqb negb andb].
      { exists a. auto. }
      rewrite N. destruct (s0 "NDEBUG") as [d|] eqn:ED;
        cbn [is_some truth option_map holds Z.eqb negb andb].
      - rewrite VG. unfold value_of. rewrite C1, C2, C3. cbn [lift2].
        destruct (family_of s0); cbn [msvc_flag clang_flag gcc_flag holds Z.eqb negb];
          try (unfold add; rewrite V; eexists; split; [reflexivity|]; split; [reflexivity|exact F1]).
        destruct (Z.leb 13 _); cbn [truth holds Z.eqb negb];
          unfold add; rewrite V; eexists; (split; [reflexivity|]; split; [reflexivity|exact F1]).
      - rewrite L. unfold libassert_result.
        destruct (uses_libassert w s0); cbn [is_some truth option_map holds Z.eqb negb andb].
        { unfold add. rewrite V. eexists. split; [reflexivity|]. split; [reflexivity|exact F1]. }
        assert (Last : forall x, x "OPTION_VERIFY" = None ->
                  exists t, bind (include w x "cstdio")
                             (fun s => add s "OPTION_VERIFY" (Text by_message)) = Done t /\
                    t "OPTION_VERIFY" = Some (Text by_message) /\
                    t "OPTION_DEBUG_BREAK" = x "OPTION_DEBUG_BREAK").
        { intros x X. destruct (include_ok x "cstdio") as (t & It & Q).
          - apply verify_header. in_list.
          - rewrite It. cbn [bind]. unfold add. rewrite (Q _ (ours_quiet "OPTION_VERIFY" eq_refl)), X.
            eexists. split; [reflexivity|]. split; [reflexivity|].
            cbn. apply (Q _ (ours_quiet "OPTION_DEBUG_BREAK" eq_refl)). }
        assert (Say : forall text, exists t,
                  bind (add a "OPTION_DEBUG_BREAK" (Text text))
                    (fun s => bind (include w s "cstdio")
                             (fun s => add s "OPTION_VERIFY" (Text by_message))) = Done t /\
                    t "OPTION_VERIFY" = Some (Text by_message) /\
                    t "OPTION_DEBUG_BREAK" = Some (Text text)).
        { intro text. unfold add at 1. rewrite F1. cbn [bind].
          destruct (Last (define a "OPTION_DEBUG_BREAK" (Text text)) V) as (t & E1 & E2 & E3).
          exists t. split; [exact E1|]. split; [exact E2|]. rewrite E3. reflexivity. }
        unfold value_of. rewrite C1, C2, C3, C4. cbn [lift2].
        destruct (family_of s0);
          cbn [msvc_flag clang_flag gcc_flag intel_flag holds Z.eqb negb orb truth];
          try apply Say.
        destruct (include_ok a "csignal") as (t & It & Q); [apply verify_header; in_list|].
        rewrite It. cbn [bind].
        assert (T1 : t "OPTION_DEBUG_BREAK" = None)
          by (rewrite (Q _ (ours_quiet "OPTION_DEBUG_BREAK" eq_refl)); exact F1).
        assert (T2 : t "OPTION_VERIFY" = None)
          by (rewrite (Q _ (ours_quiet "OPTION_VERIFY" eq_refl)); exact V).
        destruct (is_some (t "SIGTRAP")); cbn [truth holds Z.eqb negb];
          unfold add at 1; rewrite T1; cbn [bind].
        + destruct (Last (define t "OPTION_DEBUG_BREAK" (Text raise_trap)) T2) as (u & E1 & E2 & E3).
          exists u. split; [exact E1|]. split; [exact E2|]. left. rewrite E3. reflexivity.
        + destruct (Last (define t "OPTION_DEBUG_BREAK" (Text raise_abort)) T2) as (u & E1 & E2 & E3).
          exists u. split; [exact E1|]. split; [exact E2|]. right. rewrite E3. reflexivity.
    Qed.

    (** The standard. *)
    Lemma numbers :
      numeric (s0 "_MSVC_LANG") /\ (exists z, s0 "__cplusplus" = Some (Num z)) /\
      numeric (s0 "OPTION_CONSUMED_ANNOTATION_CHECKING") /\
      numeric (s0 "OPTION_FORWARD_DECLARE_STD").
    Proof. destruct Hs as (_ & _ & O & _). unfold ordinary in O. tauto. Qed.

    Lemma run_version a :
      run_list (firstn 15 parts) s0 = Done a ->
      exists b, run w version a = Done b /\
        exists m, b "OPTION_CXX_VER" = Some (Alias m) /\ In m ["_MSVC_LANG"; "__cplusplus"] /\
                  s0 m = Some (Num (language s0)).
    Proof.
      intro R.
      assert (N : a "_MSVC_LANG" = s0 "_MSVC_LANG")
        by (apply (before _ _ _ R); [apply platform_quiet; in_list|reflexivity]).
      assert (G : a "__cplusplus" = s0 "__cplusplus")
        by (apply (before _ _ _ R); [apply platform_quiet; in_list|reflexivity]).
      pose proof (fresh _ a "OPTION_CXX_VER" R eq_refl eq_refl) as F1.
      destruct numbers as (NM & (z & Z1) & _). unfold version, IfDef, language. cbn [run evaluate].
      unfold value_of. rewrite N, G, Z1. cbn [number].
      destruct (s0 "_MSVC_LANG") as [[]|] eqn:E; cbn in NM; try contradiction;
        cbn [is_some truth holds Z.eqb negb lift2].
      - destruct (Z.ltb_spec z z0); cbn [truth holds Z.eqb negb]; unfold add; rewrite F1;
          eexists; (split; [reflexivity|]).
        + exists "_MSVC_LANG". repeat split; [left; reflexivity|]. rewrite E. do 2 f_equal. lia.
        + exists "__cplusplus". repeat split; [right; left; reflexivity|]. rewrite Z1. do 2 f_equal. lia.
      - unfold add; rewrite F1. eexists; (split; [reflexivity|]).
        exists "__cplusplus". repeat split; [right; left; reflexivity|]. exact Z1.
    Qed.

    Lemma run_is_cxx20 a :
      run_list (firstn 16 parts) s0 = Done a ->
      exists b, run w is_cxx20 a = Done b /\
        b "OPTION_IS_CXX20" = Some (Num (truth (Z.leb 202002 (language s0)))).
    Proof.
      intro R. destruct (split_at (firstn 15 parts) version [] _ _ R) as (t & b & Rt & Rb & [= ->]).
      destruct (run_version t Rt) as (b' & E & m & V & I & L). rewrite E in Rb. injection Rb as ->.
      pose proof (fresh _ a "OPTION_IS_CXX20" R eq_refl eq_refl) as F1.
      assert (G : a m = s0 m).
      { destruct I as [<-|[<-|[]]]; (apply (before _ _ _ R); [apply platform_quiet; in_list|reflexivity]). }
      unfold is_cxx20, flag. cbn [run evaluate]. unfold value_of. rewrite V, G, L. cbn [lift2].
      destruct (Z.leb 202002 _); cbn [truth holds Z.eqb negb]; unfold add; rewrite F1; finish.
    Qed.

    Lemma know_cxx20 l s' :
      run_list (firstn 17 parts ++ l) s0 = Done s' ->
      s' "OPTION_IS_CXX20" = Some (Num (truth (Z.leb 202002 (language s0)))).
    Proof.
      intro R. refine (value_at (firstn 16 parts) is_cxx20 l _ _ _ R (ours_quiet _ _) _);
        [reflexivity|apply run_is_cxx20].
    Qed.

    Lemma run_constexpr_cxx20 a :
      run_list (firstn 17 parts) s0 = Done a ->
      exists b, run w constexpr_cxx20 a = Done b /\
        b "OPTION_CONSTEXPR_CXX20" =
          Some (Text (if Z.leb 202002 (language s0) then "constexpr" else "inline")).
    Proof.
      intro R. pose proof (know_cxx20 [] a R) as K.
      pose proof (fresh _ a "OPTION_CONSTEXPR_CXX20" R eq_refl eq_refl) as F1.
      unfold constexpr_cxx20. cbn [run evaluate]. unfold value_of. rewrite K.
      destruct (Z.leb 202002 _); cbn [truth holds Z.eqb negb]; unfold add; rewrite F1; finish.
    Qed.

    (** Names of functions, and enumerations. *)
    Definition names : option body :=
      match family_of s0 with
      | Gcc | Clang | ClangCl => Some (Text "__PRETTY_FUNCTION__")
      | Msvc => Some (Text "__FUNCSIG__")
      | Intel | Other => None
      end.

    Lemma run_current_function a :
      run_list (firstn 18 parts) s0 = Done a ->
      exists b, run w current_function a = Done b /\ b "OPTION_CURRENT_FUNCTION" = names.
    Proof.
      intro R.
      destruct (know_compilers (skipn 1 (firstn 18 parts)) a R) as (C1 & C2 & C3 & C4).
      pose proof (fresh _ a "OPTION_CURRENT_FUNCTION" R eq_refl eq_refl) as F1.
      unfold current_function, names. cbn [run evaluate]. unfold value_of. rewrite C1, C2, C3.
      destruct (family_of s0);
        cbn [msvc_flag clang_flag gcc_flag intel_flag holds Z.eqb negb orb truth lift2];
        first [ exists a; split; [reflexivity|exact F1] | unfold add; rewrite F1; finish ].
    Qed.

    Lemma run_empty_bases a :
      run_list (firstn 19 parts) s0 = Done a ->
      exists b, run w empty_bases a = Done b /\ is_some (b "OPTION_DECLSPEC_EMPTY_BASES") = true.
    Proof.
      intro R.
      destruct (know_compilers (skipn 1 (firstn 19 parts)) a R) as (C1 & C2 & C3 & C4).
      pose proof (fresh _ a "OPTION_DECLSPEC_EMPTY_BASES" R eq_refl eq_refl) as F1.
      unfold empty_bases. cbn [run evaluate]. unfold value_of. rewrite C3.
      destruct (holds _); unfold add; rewrite F1; finish.
    Qed.

    Lemma run_reflect_enum a :
      run_list (firstn 20 parts) s0 = Done a ->
      exists b, run w reflect_enum a = Done b /\
        b "OPTION_CAN_REFLECT_ENUM" = Some (Num (truth (is_some names))).
    Proof.
      intro R.
      assert (E : a "OPTION_CURRENT_FUNCTION" = names).
      { destruct (split_at (firstn 18 parts) current_function [empty_bases] _ _ R)
          as (t & b & Rt & Rb & Re).
        destruct (run_current_function t Rt) as (b' & E & V). rewrite E in Rb. injection Rb as ->.
        rewrite <- V. apply (frame_list [empty_bases] _ _ _ (ours_quiet "OPTION_CURRENT_FUNCTION" eq_refl) eq_refl Re). }
      pose proof (fresh _ a "OPTION_CAN_REFLECT_ENUM" R eq_refl eq_refl) as F1.
      unfold reflect_enum, IfDef, flag. cbn [run evaluate]. rewrite E.
      destruct (is_some names); cbn [truth holds Z.eqb negb]; unfold add; rewrite F1; finish.
    Qed.

    (** Annotations. *)
    Definition annotated : bool :=
      on (s0 "OPTION_CONSUMED_ANNOTATION_CHECKING") &&
      forallb (attribute w s0)
        ["clang::consumable"; "clang::callable_when"; "clang::param_typestate";
         "clang::return_typestate"; "clang::set_typestate"; "clang::test_typestate"].

    Definition six : list (string * string) :=
      [("OPTION_CONSUMABLE", "[[clang::consumable(x)]]");
       ("OPTION_CALLABLE_WHEN", "[[clang::callable_when(x)]]");
       ("OPTION_PARAM_TYPESTATE", "[[clang::param_typestate(x)]]");
       ("OPTION_RETURN_TYPESTATE", "[[clang::return_typestate(x)]]");
       ("OPTION_SET_TYPESTATE", "[[clang::set_typestate(x)]]");
       ("OPTION_TEST_TYPESTATE", "[[clang::test_typestate(x)]]")].

    Lemma asked_attribute n : holds (asked "__has_cpp_attribute" n) = attribute w s0 n.
    Proof.
      unfold asked, attribute, holds. destruct (s0 "__has_cpp_attribute"); reflexivity.
    Qed.

    Lemma holds_truth b : holds (truth b) = b.
    Proof. destruct b; reflexivity. Qed.

    Lemma run_annotations a :
      run_list (firstn 22 parts) s0 = Done a ->
      exists b, run w annotations a = Done b /\
        forall n t, In (n, t) six -> b n = Some (Text (if annotated then t else "")).
    Proof.
      intro R.
      assert (V : a "OPTION_CONSUMED_ANNOTATION_CHECKING"
                  = Some (setting_of "OPTION_CONSUMED_ANNOTATION_CHECKING" 0)).
      { refine (value_at (firstn 21 parts) consumed [] _ _ _ R (ours_quiet _ _) _); [reflexivity|].
        intros c Rc. apply (run_default _ _ _ _ Rc); reflexivity. }
      assert (N : numeric (s0 "OPTION_CONSUMED_ANNOTATION_CHECKING")) by apply numbers.
      assert (VV : exists z, value_of a "OPTION_CONSUMED_ANNOTATION_CHECKING" = Some z /\
                     holds z = on (s0 "OPTION_CONSUMED_ANNOTATION_CHECKING")).
      { unfold value_of, setting_of in *. rewrite V.
        destruct (s0 "OPTION_CONSUMED_ANNOTATION_CHECKING") as [[]|]; cbn in N; try contradiction;
          eexists; split; reflexivity. }
      destruct VV as (z & Vz & Hz).
      assert (A : forall arg, call w a "OPTION_HAS_CPP_ATTRIBUTE" arg
                  = Some (asked "__has_cpp_attribute" arg)).
      { intro arg. apply (ask_cpp_attribute (skipn 4 (firstn 22 parts)) a arg R eq_refl). }
      pose proof (fresh _ a "OPTION_CONSUMABLE" R eq_refl eq_refl) as F1.
      pose proof (fresh _ a "OPTION_CALLABLE_WHEN" R eq_refl eq_refl) as F2.
      pose proof (fresh _ a "OPTION_PARAM_TYPESTATE" R eq_refl eq_refl) as F3.
      pose proof (fresh _ a "OPTION_RETURN_TYPESTATE" R eq_refl eq_refl) as F4.
      pose proof (fresh _ a "OPTION_SET_TYPESTATE" R eq_refl eq_refl) as F5.
      pose proof (fresh _ a "OPTION_TEST_TYPESTATE" R eq_refl eq_refl) as F6.
      unfold annotations, annotations_available, has_cpp. cbn [run evaluate].
      rewrite Vz, !A. cbn [lift2]. rewrite !holds_truth, Hz, !asked_attribute.
      replace (_ && _) with annotated
        by (unfold annotated; cbn [forallb]; rewrite andb_true_r, !andb_assoc; reflexivity).
      destruct annotated; unfold add; rewrite F1; cbn; rewrite F2; cbn; rewrite F3; cbn;
        rewrite F4; cbn; rewrite F5; cbn; rewrite F6; cbn;
        eexists; (split; [reflexivity|]); intros n t I; cbn in I;
        repeat (destruct I as [I|I]; [injection I as <- <-; reflexivity|]); contradiction.
    Qed.

    (** Declarations of the standard library. *)
    Definition forwards : bool := negb (off (s0 "OPTION_FORWARD_DECLARE_STD")).

    Definition namespace_macros : list string :=
      ["OPTION_STD_NAMESPACE_BEGIN"; "OPTION_STD_NAMESPACE_END";
       "OPTION_STD_NAMESPACE_CXX11_BEGIN"; "OPTION_STD_NAMESPACE_CXX11_END"].

    Lemma run_namespace a t1 t2 t3 t4 :
      (forall n, In n namespace_macros -> a n = None) ->
      exists b, run w (std_namespace t1 t2 t3 t4) a = Done b /\
        forall n, In n namespace_macros -> is_some (b n) = true.
    Proof.
      intro F.
      pose proof (F "OPTION_STD_NAMESPACE_BEGIN" ltac:(in_list)) as F1.
      pose proof (F "OPTION_STD_NAMESPACE_END" ltac:(in_list)) as F2.
      pose proof (F "OPTION_STD_NAMESPACE_CXX11_BEGIN" ltac:(in_list)) as F3.
      pose proof (F "OPTION_STD_NAMESPACE_CXX11_END" ltac:(in_list)) as F4.
      unfold std_namespace. cbn [run]. unfold add. rewrite F1. cbn. rewrite F2. cbn. rewrite F3. cbn.
      rewrite F4. cbn. eexists. split; [reflexivity|]. intros n I. cbn in I.
      repeat (destruct I as [I|I]; [subst; reflexivity|]). contradiction.
    Qed.

    Lemma run_includes l : (forall f, In f l -> files w f <> None) ->
      forall a, exists b, run w (seq (map Include l)) a = Done b /\ forall n, quiet n -> b n = a n.
    Proof.
      intros H a. rewrite run_seq. revert H a. induction l as [|f l IH]; intros H a.
      - exists a. auto.
      - cbn [map run_list run]. destruct (include_ok a f) as (t & E & Q); [apply H; left; reflexivity|].
        rewrite E. cbn [bind]. destruct (IH (fun g I => H g (or_intror I)) t) as (b & E' & Q').
        exists b. split; [exact E'|]. intros n Hn. rewrite Q', Q; auto.
    Qed.

    Lemma run_forward_std a :
      run_list (firstn 24 parts) s0 = Done a ->
      exists b, run w forward_std a = Done b /\
        forall n, In n namespace_macros -> is_some (b n) = forwards.
    Proof.
      intro R.
      assert (V : a "OPTION_FORWARD_DECLARE_STD" = Some (setting_of "OPTION_FORWARD_DECLARE_STD" 1)).
      { refine (value_at (firstn 23 parts) forward [] _ _ _ R (ours_quiet _ _) _); [reflexivity|].
        intros c Rc. apply (run_default _ _ _ _ Rc); reflexivity. }
      assert (N : numeric (s0 "OPTION_FORWARD_DECLARE_STD")) by apply numbers.
      assert (VV : exists z, value_of a "OPTION_FORWARD_DECLARE_STD" = Some z /\ holds z = forwards).
      { unfold value_of, setting_of, forwards, off in *. rewrite V.
        destruct (s0 "OPTION_FORWARD_DECLARE_STD") as [[]|]; cbn in N; try contradiction;
          eexists; (split; [reflexivity|]); cbn; [unfold holds; rewrite negb_involutive; reflexivity|reflexivity]. }
      destruct VV as (z & Vz & Hz).
      destruct (know_libraries (skipn 2 (firstn 24 parts)) a R) as (L1 & L2 & L3 & _).
      assert (F : forall n, In n namespace_macros -> a n = None).
      { intros n I. cbn in I.
        repeat (destruct I as [I|I]; [subst; apply (fresh _ _ _ R); reflexivity|]). contradiction. }
      unfold forward_std. cbn [run evaluate]. rewrite Vz, Hz. unfold value_of. rewrite L1, L2, L3.
      destruct forwards.
      - repeat (cbn [lift2];
                match goal with |- context [if holds (truth ?x) then _ else _] =>
                  destruct (holds (truth x)); [apply run_namespace; exact F|] end).
        apply run_namespace; exact F.
      - destruct (run_includes ["string_view"; "string"; "vector"; "memory"; "array"; "variant"; "complex"])
          with (a := a) as (b & E & Q).
        + intros f I. apply verify_header. cbn in I |- *. tauto.
        + exists b. split; [exact E|]. intros n I. rewrite Q.
          * rewrite (F n I). reflexivity.
          * apply ours_quiet. cbn in I.
            repeat (destruct I as [I|I]; [subst; reflexivity|]). contradiction.
    Qed.

    Lemma run_memory a :
      run_list (firstn 25 parts) s0 = Done a -> exists b, run w memory a = Done b.
    Proof.
      intro R. pose proof (know_cxx20 (skipn 17 (firstn 25 parts)) a R) as K.
      unfold memory. cbn [run evaluate]. unfold value_of. rewrite K.
      destruct (holds _); [|exists a; reflexivity].
      destruct (include_ok a "memory") as (t & E & _); [apply verify_header; in_list|]. exists t. exact E.
    Qed.

    Lemma run_addressof a :
      run_list (firstn 26 parts) s0 = Done a ->
      exists b, run w addressof a = Done b /\ is_some (b "OPTION_ADDRESSOF") = true.
    Proof.
      intro R. pose proof (ask_builtin (skipn 5 (firstn 26 parts)) a "__builtin_addressof" R eq_refl) as B.
      destruct (know_compilers (skipn 1 (firstn 26 parts)) a R) as (_ & _ & M & _).
      pose proof (fresh _ a "OPTION_ADDRESSOF" R eq_refl eq_refl) as F1.
      unfold addressof. cbn [run evaluate]. unfold value_of. rewrite B, M. cbn [lift2].
      destruct (holds _).
      - unfold add. rewrite F1. finish.
      - destruct (include_ok a "memory") as (t & E & Q); [apply verify_header; in_list|].
        rewrite E. cbn [bind]. unfold add. rewrite (Q _ (ours_quiet "OPTION_ADDRESSOF" eq_refl)), F1. finish.
    Qed.

    (** The whole header. *)
    Ltac peel k E :=
      destruct k as [|k];
      [injection E as <-|cbn [nth_error] in E; first [solve [destruct k; discriminate]|peel k E]].

    Lemma header_runs : accepted w s0 -> exists s', run w header s0 = Done s'.
    Proof.
      intro Acc.
      assert (P : exists s', run_list parts s0 = Done s').
      { apply progress. intros k c a E R.
        peel k E.
        - injection R as <-. destruct run_compilers as (b & H & _). eauto.
        - destruct (run_libraries a R) as (b & H & _). eauto.
        - destruct (run_has_attribute a R) as (b & H & _). eauto.
        - destruct (run_has_cpp_attribute a R) as (b & H & _). eauto.
        - destruct (run_has_builtin a R) as (b & H & _). eauto.
        - destruct (run_lifetimebound a R) as (b & H & _). eauto.
        - destruct (run_pure a R) as (b & H & _). eauto.
        - destruct (run_sanitize a R) as (b & H & _). eauto.
        - destruct (run_no_sanitize a R) as (b & H & _). eauto.
        - destruct (run_default _ a "OPTION_USE_QUIET_NAN" 0 R eq_refl eq_refl) as (b & H & _). eauto.
        - destruct (run_pfr a Acc R) as (b & H & _). eauto.
        - destruct (run_default _ a "OPTION_USE_BUILTIN_TRAITS" 1 R eq_refl eq_refl) as (b & H & _). eauto.
        - destruct (run_libassert_path a R) as (b & H & _). eauto.
        - destruct (run_libassert a Acc R) as (b & H & _). eauto.
        - destruct (run_verify_macro a Acc R) as (b & H & _). eauto.
        - destruct (run_version a R) as (b & H & _). eauto.
        - destruct (run_is_cxx20 a R) as (b & H & _). eauto.
        - destruct (run_constexpr_cxx20 a R) as (b & H & _). eauto.
        - destruct (run_current_function a R) as (b & H & _). eauto.
        - destruct (run_empty_bases a R) as (b & H & _). eauto.
        - destruct (run_reflect_enum a R) as (b & H & _). eauto.
        - destruct (run_default _ a "OPTION_CONSUMED_ANNOTATION_CHECKING" 0 R eq_refl eq_refl) as (b & H & _). eauto.
        - destruct (run_annotations a R) as (b & H & _). eauto.
        - destruct (run_default _ a "OPTION_FORWARD_DECLARE_STD" 1 R eq_refl eq_refl) as (b & H & _). eauto.
        - destruct (run_forward_std a R) as (b & H & _). eauto.
        - apply (run_memory a R).
        - destruct (run_addressof a R) as (b & H & _). eauto. }
      destruct P as [s' P]. exists s'. rewrite header_parts. exact P.
    Qed.

    Lemma header_only s' : run w header s0 = Done s' -> accepted w s0.
    Proof.
      rewrite header_parts. intro R. split; intro O.
      - destruct (split_at (firstn 10 parts) pfr (skipn 11 parts) _ _ R) as (a & b & Ra & Rb & _).
        apply (pfr_only a b Ra Rb O).
      - destruct (split_at (firstn 13 parts) libassert (skipn 14 parts) _ _ R) as (a & b & Ra & Rb & _).
        apply (libassert_only a b Ra Rb O).
    Qed.

    Lemma header_keeps s' n b :
      run w header s0 = Done s' -> ours n -> s0 n = Some b -> s' n = Some b.
    Proof. intros R O H. apply (keeps _ _ _ _ _ (ours_quiet n O) R H). Qed.

    (** A macro that one part decides and no later part touches. *)
    Lemma decided k c s' n v :
      run w header s0 = Done s' -> ours n ->
      parts = firstn k parts ++ c :: skipn (S k) parts ->
      mentions n (defines_list (skipn (S k) parts)) = false ->
      (forall a, run_list (firstn k parts) s0 = Done a -> exists b, run w c a = Done b /\ b n = v) ->
      s' n = v.
    Proof.
      rewrite header_parts. intros R O E M H. rewrite E in R.
      destruct (split_at _ _ _ _ _ R) as (a & b & Ra & Rb & Rl).
      destruct (H a Ra) as (b' & E' & V). rewrite Rb in E'. injection E' as <-.
      rewrite <- V. apply (frame_list _ _ _ _ (ours_quiet n O) M Rl).
    Qed.

    Lemma decided_some k c s' n :
      run w header s0 = Done s' -> ours n ->
      parts = firstn k parts ++ c :: skipn (S k) parts ->
      (forall a, run_list (firstn k parts) s0 = Done a ->
         exists b, run w c a = Done b /\ is_some (b n) = true) ->
      is_some (s' n) = true.
    Proof.
      rewrite header_parts. intros R O E H. rewrite E in R.
      destruct (split_at _ _ _ _ _ R) as (a & b & Ra & Rb & Rl).
      destruct (H a Ra) as (b' & E' & V). rewrite Rb in E'. injection E' as <-.
      destruct (b n) eqn:Eb; [|discriminate].
      rewrite (keeps_list _ _ _ _ _ (ours_quiet n O) Rl Eb). reflexivity.
    Qed.

    Section Final.
      Context (s' : macros) (Hr : run w header s0 = Done s').

      Lemma final_parts : run_list parts s0 = Done s'.
      Proof. rewrite <- header_parts. exact Hr. Qed.

      Lemma final_accepted : accepted w s0.
      Proof. apply (header_only s' Hr). Qed.

      Lemma final_compilers :
        s' "OPTION_CLANG" = Some (Num (clang_flag (family_of s0))) /\
        s' "OPTION_GCC" = Some (Num (gcc_flag (family_of s0))) /\
        s' "OPTION_MSVC" = Some (Num (msvc_flag (family_of s0))) /\
        s' "OPTION_INTEL" = Some (Num (intel_flag (family_of s0))).
      Proof. apply (know_compilers (skipn 1 parts)). exact final_parts. Qed.

      Lemma final_libraries :
        s' "OPTION_LIBCPP" = Some (Num match library_of s0 with LibCpp => 1 | _ => 0 end) /\
        s' "OPTION_LIBSTDCPP" = Some (Num match library_of s0 with LibStdCpp => 1 | _ => 0 end) /\
        s' "OPTION_STL" = Some (Num match library_of s0 with Stl => 1 | _ => 0 end) /\
        s' "OPTION_UNKNOWN_STD" = Some (Num match library_of s0 with NoLibrary => 1 | _ => 0 end).
      Proof. apply (know_libraries (skipn 2 parts)). exact final_parts. Qed.

      Lemma final_setting n z :
        In (n, z) [("OPTION_USE_QUIET_NAN", 0); ("OPTION_USE_BUILTIN_TRAITS", 1);
                   ("OPTION_CONSUMED_ANNOTATION_CHECKING", 0); ("OPTION_FORWARD_DECLARE_STD", 1)] ->
        s' n = Some (setting_of n z).
      Proof.
        intros [E|[E|[E|[E|[]]]]]; injection E as <- <-.
        - apply (decided 9 quiet_nan); try reflexivity; [exact Hr|].
          intros a R. apply (run_default _ _ _ _ R); reflexivity.
        - apply (decided 11 builtin_traits); try reflexivity; [exact Hr|].
          intros a R. apply (run_default _ _ _ _ R); reflexivity.
        - apply (decided 21 consumed); try reflexivity; [exact Hr|].
          intros a R. apply (run_default _ _ _ _ R); reflexivity.
        - apply (decided 23 forward); try reflexivity; [exact Hr|].
          intros a R. apply (run_default _ _ _ _ R); reflexivity.
      Qed.

      Lemma final_pfr :
        s' "OPTION_HAS_PFR" = fst pfr_result /\ s' "OPTION_PFR_NAMESPACE" = snd pfr_result.
      Proof.
        split; apply (decided 10 pfr); try reflexivity; try exact Hr; intros a R;
          destruct (run_pfr a final_accepted R) as (b & E & V); exists b; (split; [exact E|]);
          rewrite <- V; reflexivity.
      Qed.

      Lemma final_libassert : s' "OPTION_HAS_LIBASSERT" = libassert_result.
      Proof.
        apply (decided 13 libassert); try reflexivity; [exact Hr|].
        intros a R. apply (run_libassert a final_accepted R).
      Qed.

      Lemma final_verify : s' "OPTION_VERIFY" = Some verify_body.
      Proof.
        apply (decided 14 verify_macro); try reflexivity; [exact Hr|].
        intros a R. destruct (run_verify_macro a final_accepted R) as (b & E & V & _). eauto.
      Qed.

      Lemma final_break :
        if reports then
           match family_of s0 with
           | Clang | ClangCl => s' "OPTION_DEBUG_BREAK" = Some (Text debugtrap)
           | Msvc | Intel => s' "OPTION_DEBUG_BREAK" = Some (Text debugbreak)
           | Gcc => s' "OPTION_DEBUG_BREAK" = Some (Text trap)
           | Other => s' "OPTION_DEBUG_BREAK" = Some (Text raise_trap) \/
                      s' "OPTION_DEBUG_BREAK" = Some (Text raise_abort)
           end
         else s' "OPTION_DEBUG_BREAK" = None.
      Proof.
        destruct (split_at (firstn 14 parts) verify_macro (skipn 15 parts) _ _ final_parts)
          as (a & b & Ra & Rb & Rl).
        rewrite (frame_list (skipn 15 parts) _ _ _ (ours_quiet "OPTION_DEBUG_BREAK" eq_refl) eq_refl Rl).
        destruct (run_verify_macro a final_accepted Ra) as (b' & E & _ & V).
        rewrite Rb in E. injection E as <-. exact V.
      Qed.

      Lemma final_cxx20 :
        s' "OPTION_IS_CXX20" = Some (Num (truth (Z.leb 202002 (language s0)))) /\
        s' "OPTION_CONSTEXPR_CXX20" =
          Some (Text (if Z.leb 202002 (language s0) then "constexpr" else "inline")).
      Proof.
        split; [apply (know_cxx20 (skipn 17 parts)); exact final_parts|].
        apply (decided 17 constexpr_cxx20); try reflexivity; [exact Hr|].
        intros a R. apply (run_constexpr_cxx20 a R).
      Qed.

      Lemma final_names :
        s' "OPTION_CURRENT_FUNCTION" = names /\
        s' "OPTION_CAN_REFLECT_ENUM" = Some (Num (truth (is_some names))).
      Proof.
        split.
        - apply (decided 18 current_function); try reflexivity; [exact Hr|].
          intros a R. apply (run_current_function a R).
        - apply (decided 20 reflect_enum); try reflexivity; [exact Hr|].
          intros a R. apply (run_reflect_enum a R).
      Qed.

      Lemma final_annotations n t :
        In (n, t) six -> s' n = Some (Text (if annotated then t else "")).
      Proof.
        intro I.
        apply (decided 22 annotations); try reflexivity; [exact Hr| | |].
        - cbn in I. repeat (destruct I as [I|I]; [injection I as <- <-; reflexivity|]). contradiction.
        - cbn in I. repeat (destruct I as [I|I]; [injection I as <- <-; reflexivity|]). contradiction.
        - intros a R. destruct (run_annotations a R) as (b & E & V). exists b. auto.
      Qed.

      Lemma final_namespace n : In n namespace_macros -> is_some (s' n) = forwards.
      Proof.
        intro I.
        destruct (split_at (firstn 24 parts) forward_std (skipn 25 parts) _ _ final_parts)
          as (a & b & Ra & Rb & Rl).
        destruct (run_forward_std a Ra) as (b' & E & V).
        rewrite Rb in E. injection E as <-. rewrite <- (V n I). f_equal.
        cbn in I. repeat (destruct I as [I|I];
          [subst n; refine (frame_list (skipn 25 parts) _ _ _ (ours_quiet _ _) _ Rl); reflexivity|]).
        contradiction.
      Qed.

      Lemma final_sanitize :
        is_some (s' "OPTION_NO_SANITIZE_OBJECT_SIZE") = true /\
        s' "OPTION_HAS_NO_SANITIZE_OBJECT_SIZE" = Some (Num (truth object_size_checked)).
      Proof.
        split.
        - apply (decided_some 8 no_sanitize); try reflexivity; [exact Hr|].
          intros a R. destruct (run_no_sanitize a R) as (b & E & V & _). eauto.
        - apply (decided 8 no_sanitize); try reflexivity; [exact Hr|].
          intros a R. destruct (run_no_sanitize a R) as (b & E & _ & V). eauto.
      Qed.

      Lemma final_rest n :
        In n ["OPTION_HAS_ATTRIBUTE"; "OPTION_HAS_CPP_ATTRIBUTE"; "OPTION_HAS_BUILTIN";
              "OPTION_LIFETIMEBOUND"; "OPTION_PURE"; "OPTION_LIBASSERT_FILE"; "OPTION_CXX_VER";
              "OPTION_DECLSPEC_EMPTY_BASES"; "OPTION_ADDRESSOF"] ->
        is_some (s' n) = true.
      Proof.
        intro I. cbn in I.
        destruct I as [<-|[<-|[<-|[<-|[<-|[<-|[<-|[<-|[<-|[]]]]]]]]]].
        - apply (decided_some 2 has_attribute); try reflexivity; [exact Hr|].
          intros a R. destruct (run_has_attribute a R) as (b & E & V). exists b. rewrite V. auto.
        - apply (decided_some 3 has_cpp_attribute); try reflexivity; [exact Hr|].
          intros a R. destruct (run_has_cpp_attribute a R) as (b & E & V). exists b. rewrite V. auto.
        - apply (decided_some 4 has_builtin); try reflexivity; [exact Hr|].
          intros a R. destruct (run_has_builtin a R) as (b & E & V). exists b. rewrite V. auto.
        - apply (decided_some 5 lifetimebound); try reflexivity; [exact Hr|]. apply run_lifetimebound.
        - apply (decided_some 6 pure); try reflexivity; [exact Hr|]. apply run_pure.
        - apply (decided_some 12 libassert_path); try reflexivity; [exact Hr|].
          intros a R. destruct (run_libassert_path a R) as (b & E & V). exists b. rewrite V. auto.
        - apply (decided_some 15 version); try reflexivity; [exact Hr|].
          intros a R. destruct (run_version a R) as (b & E & m & V & _). exists b. rewrite V. auto.
        - apply (decided_some 19 empty_bases); try reflexivity; [exact Hr|]. apply run_empty_bases.
        - apply (decided_some 26 addressof); try reflexivity; [exact Hr|]. apply run_addressof.
      Qed.
      (** The reflection library that is expected. *)
      Lemma final_expected :
        genuine w s0 -> file_alone s0 = false ->
        is_some (s' "OPTION_HAS_PFR") = is_some (expected w s0) /\
        s' "OPTION_PFR_NAMESPACE" = option_map (fun l => Text (namespace_of l)) (expected w s0).
      Proof.
        intros (G1 & G2 & G3) A. destruct final_pfr as [-> ->].
        pose proof final_accepted as [Acc _].
        assert (NU : numeric (s0 "OPTION_USE_PFR"))
          by (destruct Hs as (_ & _ & O & _); unfold ordinary in O; tauto).
        assert (NP : path (s0 "OPTION_PFR_FILE"))
          by (destruct Hs as (_ & _ & O & _); unfold ordinary in O; tauto).
        unfold pfr_result, expected, pfr_file, off, file_alone in *.
        destruct (s0 "OPTION_USE_PFR") as [u|] eqn:U; cbn [is_some negb andb] in *.
        - destruct (on (Some u)) eqn:O; cbn [negb].
          + destruct (Acc eq_refl) as (f & Ef & Ff & D). rewrite Ef.
            replace (is_some (files w f)) with true by (destruct (files w f); [reflexivity|contradiction]).
            unfold enabled. destruct (G3 f) as [E|E]; rewrite E.
            * cbn. destruct (on (after w s0 f "PFR_ENABLED")); split; reflexivity.
            * cbn. destruct (after w s0 f "BOOST_PFR_ENABLED") as [v|] eqn:V.
              -- cbn [is_some]. destruct (on (Some v)); split; reflexivity.
              -- cbn. split; reflexivity.
          + split; reflexivity.
        - destruct (s0 "OPTION_PFR_FILE") as [p|]; [discriminate|].
          destruct (is_some (files w "boost/pfr.hpp")).
          + unfold enabled. rewrite G1. destruct (on (after w s0 "boost/pfr.hpp" "BOOST_PFR_ENABLED"));
              split; reflexivity.
          + destruct (is_some (files w "pfr.hpp")); [|split; reflexivity].
            unfold enabled. rewrite G2. cbn. destruct (on (after w s0 "pfr.hpp" "PFR_ENABLED")); split; reflexivity.
      Qed.

      Lemma final_file_alone f :
        s0 "OPTION_USE_PFR" = None -> s0 "OPTION_PFR_FILE" = Some (File f) ->
        (s' "OPTION_HAS_PFR" <> None <-> files w f <> None /\ enabled w s0 f Boost = true) /\
        s' "OPTION_PFR_NAMESPACE" = None.
      Proof.
        intros U P. destruct final_pfr as [-> ->]. unfold pfr_result, enabled. rewrite U, P.
        destruct (files w f); cbn [is_some andb].
        - destruct (on (after w s0 f "BOOST_PFR_ENABLED")); cbn; split; try reflexivity; split; try tauto; intuition discriminate.
        - cbn. split; [|reflexivity]. intuition.
      Qed.

    End Final.

  End Setting.
End Facts.
