(** Proofs about the compilers that are documented as tested. *)
From Coq Require Import Bool List Ascii String.
From Verif Require Import CMakeLang CMakeSource CMakeFiles CMakeRules CMakeSpec CMakeLemmas CMakeExternal CILang CISpec CIDoc CIFacts.
Import ListNotations.
Open Scope string_scope.
Open Scope list_scope.

Section Look.
Context (f : list (string * string) -> CILang.configure -> bool) (cfg : string).
Fixpoint look_for (pre l : list (list (string * string) * action)) : bool :=
  match l with
  | [] => false
  | (env, a) :: rest =>
      match a with
      | Build d cfg' (Some t) =>
          String.eqb t "run-option-test" && String.eqb cfg' cfg &&
          match configured_in d pre with Some (env', c) => f env' c | None => false end
      | _ => false
      end || look_for (pre ++ [(env, a)]) rest
  end.
Lemma look_for_at l : forall pre, look_for pre l = true ->
  exists a env d post env' c, l = a ++ (env, Build d cfg (Some "run-option-test")) :: post /\
    configured_in d (pre ++ a) = Some (env', c) /\ f env' c = true.
Proof.
  induction l as [|[env0 a0] rest IH]; intros pre H; [discriminate|].
  cbn [look_for] in H. apply orb_prop in H. destruct H as [H|H].
  - destruct a0 as [| d cfg' [t|]| |]; try discriminate. apply andb_prop in H. destruct H as [H H3].
    apply andb_prop in H. destruct H as [H1 H2]. apply String.eqb_eq in H1, H2. subst.
    destruct (configured_in d pre) as [[env' c]|] eqn:C; [|discriminate].
    exists [], env0, d, rest, env', c. rewrite app_nil_r. auto.
  - destruct (IH _ H) as (a & env & d & post & env' & c & -> & C & N).
    exists ((env0, a0) :: a), env, d, post, env', c. split; [reflexivity|]. rewrite <- app_assoc in C. now split.
Qed.
End Look.
Lemma look_for_run f r cfg : look_for f cfg [] (r_actions r) = true ->
  exists d env c, test_run r d cfg env c /\ f env c = true.
Proof.
  intros H. destruct (look_for_at f cfg _ [] H) as (a & env & d & post & env' & c & E & C & N).
  exists d, env', c. split; [|exact N]. exists a, env, post. split; [exact E|exact C].
Qed.

(** A configuration whose flags are those of OPTION_EXTRA_FLAGS. *)
Definition plain_test (c : CILang.configure) : bool :=
  String.eqb (c_source c) "." && is_none (set_by c "OPTION_INSTALL") && is_none (set_by c "OPTION_TEST").
Lemma plain_flags r env c h e rec : plain_test c = true -> arranged r env c h e -> recorded_by c h e rec ->
  directory_options "option-test" rec = [(flags_of c, flags_of c)].
Proof.
  intros K A R. unfold plain_test in K. apply andb_prop in K. destruct K as [K K2]. apply andb_prop in K. destruct K as [K K1].
  apply String.eqb_eq in K. apply is_none_eq in K1, K2.
  destruct R as [(_ & T & R)|(_ & [(X & _)|[(X & _)|[(X & _)|(X & _)]]])]; try (rewrite K in X; discriminate).
  apply configures_expected in R. subst rec. rewrite test_flags.
  - rewrite (a_opts _ _ _ _ _ A), (a_links _ _ _ _ _ A). unfold extra_flags. rewrite (a_set _ _ _ _ _ A). reflexivity.
  - unfold on. now rewrite (a_set _ _ _ _ _ A), K1.
  - unfold on. now rewrite (a_set _ _ _ _ _ A), K2, T.
Qed.
Definition good (line major lib : string) (r : run) (env : list (string * string)) (c : CILang.configure) : bool :=
  uses line major lib r env c && negb (narrow r env c) && plain_test c &&
  Bool.eqb (sanitizes "address" (flags_of c)) (address_for line) && Bool.eqb (sanitizes "undefined" (flags_of c)) (undefined_for line).
Definition libs_of (line : string) : list string := match libraries line with [] => [""] | l => l end.
Definition all_good (o : option (list run)) : bool :=
  match o with
  | Some rs =>
      forallb (fun line => forallb (fun major => forallb (fun lib => forallb (fun cfg =>
        existsb (fun r => look_for (good line major lib r) cfg [] (r_actions r)) rs) ["Debug"; "Release"]) (libs_of line)) (majors line))
        readme_compilers
  | None => false
  end.
Lemma documented_good hit : all_good (workflow_runs (github hit) ci) = true.
Proof. destruct hit; vm_compute; reflexivity. Qed.
(** The library is not looked at if the line names none. *)
Definition named (line : string) : bool := match libraries line with [] => negb (String.eqb (family line) "Clang") | _ => true end.
Lemma all_named : forallb named readme_compilers = true.
Proof. reflexivity. Qed.
Lemma uses_any line major l1 l2 r env c : String.eqb (family line) "Clang" = false -> uses line major l1 r env c = uses line major l2 r env c.
Proof. intros H. unfold uses. rewrite H. reflexivity. Qed.
Theorem documented_tested hit rs line major lib cfg : workflow_runs (github hit) ci = Some rs ->
  documented line major lib -> In cfg ["Debug"; "Release"] ->
  exists r d env c, In r rs /\ test_run r d cfg env c /\ uses line major lib r env c = true /\ narrow r env c = false /\
    forall h e rec, arranged r env c h e -> recorded_by c h e rec ->
    exists flags, directory_options "option-test" rec = [(flags, flags)] /\
      sanitizes "address" flags = address_for line /\ sanitizes "undefined" flags = undefined_for line.
Proof.
  intros W (D1 & D2 & D3) C. pose proof (documented_good hit) as G. rewrite W in G. clear W. cbn [all_good] in G.
  rewrite forallb_forall in G. specialize (G _ D1). rewrite forallb_forall in G. specialize (G _ D2). rewrite forallb_forall in G.
  pose proof all_named as A. rewrite forallb_forall in A. specialize (A _ D1).
  assert (E : exists lib', In lib' (libs_of line) /\ (lib' = lib \/ String.eqb (family line) "Clang" = false)).
  { unfold libs_of, named in *. destruct (libraries line) as [|x l] eqn:L.
    - exists "". split; [now left|]. right. now apply negb_true_iff.
    - exists lib. split; [|now left]. destruct D3 as [D3|D3]; [discriminate|exact D3]. }
  destruct E as (lib' & I & E). specialize (G _ I). rewrite forallb_forall in G. specialize (G _ C).
  apply existsb_exists in G. destruct G as (r & Ir & G). apply look_for_run in G. destruct G as (d & env & c & T & G).
  unfold good in G. apply andb_prop in G. destruct G as [G G5]. apply andb_prop in G. destruct G as [G G4].
  apply andb_prop in G. destruct G as [G G3]. apply andb_prop in G. destruct G as [G1 G2].
  exists r, d, env, c. split; [exact Ir|]. split; [exact T|]. split.
  { destruct E as [->|E]; [exact G1|]. now rewrite (uses_any line major lib lib' r env c E). }
  split; [now apply negb_true_iff|]. intros h e rec Ar R. exists (flags_of c). split; [exact (plain_flags r env c h e rec G3 Ar R)|].
  split; now apply Bool.eqb_prop.
Qed.

(** * The compiler of Intel *)

Definition intel_line : string := "- IntelLLVM: 2024.2.1".
Definition unsanitized (r : run) (_ : string) (env : list (string * string)) (c : CILang.configure) : bool :=
  negb (uses intel_line "2024" "" r env c) ||
  plain_test c && negb (sanitizes "address" (flags_of c)) && negb (sanitizes "undefined" (flags_of c)).
Lemma intel_unsanitized hit : all_each "run-option-test" unsanitized (workflow_runs (github hit) ci) = true.
Proof. destruct hit; vm_compute; reflexivity. Qed.
Theorem intel_without hit rs r d cfg env c : workflow_runs (github hit) ci = Some rs -> In r rs -> test_run r d cfg env c ->
  uses intel_line "2024" "" r env c = true ->
  forall h e rec, arranged r env c h e -> recorded_by c h e rec ->
  exists flags, directory_options "option-test" rec = [(flags, flags)] /\
    sanitizes "address" flags = false /\ sanitizes "undefined" flags = false.
Proof.
  intros W I (pre & env0 & post & E & C) U h e rec A R.
  destruct (each_build _ _ _ rs r pre env0 d cfg post (intel_unsanitized hit) W I E) as (env' & c' & C' & K). clear W.
  rewrite C in C'. injection C' as <- <-. unfold unsanitized in K. rewrite U in K. cbn [negb orb] in K.
  apply andb_prop in K. destruct K as [K K3]. apply andb_prop in K. destruct K as [K1 K2].
  exists (flags_of c). split; [exact (plain_flags r env c h e rec K1 A R)|]. split; now apply negb_true_iff.
Qed.
