(** Proofs about the words of commands, the entries of a matrix, and what is listed in the README. *)
From Coq Require Import Bool List Ascii String.
From Verif Require Import CMakeLang CMakeRules CMakeSpec CMakeExternal CILang CISpec CIDoc CIFacts CIDocFacts.
Import ListNotations.
Open Scope string_scope.
Open Scope list_scope.

Lemma text_app_nil (s : string) : (s ++ "")%string = s.
Proof. induction s as [|c s IH]; [reflexivity|]. cbn. now rewrite IH. Qed.
Lemma text_app_assoc (a b c : string) : ((a ++ b) ++ c)%string = (a ++ (b ++ c))%string.
Proof. induction a as [|x a IH]; [reflexivity|]. cbn. now rewrite IH. Qed.

Definition so_far (cur : option string) : string := match cur with Some w => w | None => "" end.
Definition rest_words (sh : shell) (rest : string) : list string :=
  match rest with EmptyString => [] | String _ r => split_words sh r None false end.
Lemma spelled_word sh q t w : spells sh q t w -> forall cur rest,
  (rest = "" \/ exists r, rest = String " " r) -> (t = "" -> cur <> None) ->
  split_words sh (t ++ rest) cur q = (so_far cur ++ w)%string :: rest_words sh rest.
Proof.
  induction 1 as [|q c t w H1 H2 H3 H IH|q c t w H1 H IH|q t w H IH]; intros cur rest R T.
  - destruct cur as [w|]; [|now destruct (T eq_refl)]. cbn [so_far]. rewrite text_app_nil.
    destruct R as [->|[r ->]]; reflexivity.
  - change (String c t ++ rest)%string with (String c (t ++ rest)). cbn [split_words].
    destruct (Ascii.eqb_spec c """") as [E|_]; [now destruct H1|].
    destruct (Ascii.eqb c " " && negb q) eqn:B.
    { apply andb_prop in B. destruct B as [B1 B2]. apply Ascii.eqb_eq in B1. rewrite (H2 B1) in B2. discriminate. }
    assert (E : split_words sh (t ++ rest) (Some (match cur with Some w0 => w0 ++ String c "" | None => String c "" end)%string) q =
      (so_far cur ++ String c w)%string :: rest_words sh rest).
    { rewrite IH by (auto; discriminate). f_equal. destruct cur as [w0|]; cbn [so_far]; [|reflexivity].
      now rewrite text_app_assoc. }
    destruct sh; [exact E|].
    assert (N : c <> "`"%char) by auto.
    rewrite <- E. clear E. destruct c as [[] [] [] [] [] [] [] []]; try reflexivity. now destruct N.
  - subst sh. change (String "`" (String c t) ++ rest)%string with (String "`" (String c (t ++ rest))). cbn [split_words].
    change (Ascii.eqb "`" """") with false. change (Ascii.eqb "`" " ") with false. cbn [andb].
    rewrite IH by (auto; discriminate). f_equal. destruct cur as [w0|]; cbn [so_far]; [|reflexivity].
    now rewrite text_app_assoc.
  - change (String """" t ++ rest)%string with (String """" (t ++ rest)). cbn [split_words]. rewrite Ascii.eqb_refl.
    rewrite IH by (auto; destruct cur; discriminate). now destruct cur.
Qed.
Theorem words_spelled sh l : Forall (fun p => fst p <> "" /\ spells sh false (fst p) (snd p)) l ->
  command_words sh (String.concat " " (map fst l)) = map snd l.
Proof.
  unfold command_words. induction 1 as [|[t w] l [N S] _ IH]; [reflexivity|]. cbn [fst snd] in *. cbn [map].
  destruct l as [|p l].
  - cbn [map String.concat]. rewrite <- (text_app_nil t) at 1. cbn [fst snd].
    rewrite (spelled_word sh false t w S None "") by (auto; intros; now destruct N). reflexivity.
  - cbn [map fst snd] in *.
    change (String.concat " " (t :: fst p :: map fst l)) with (t ++ String " " (String.concat " " (fst p :: map fst l)))%string.
    rewrite (spelled_word sh false t w S None) by (eauto; intros; now destruct N).
    cbn [so_far append rest_words]. now rewrite IH.
Qed.

Theorem all_combinations l : forall m, In m (combinations l) <-> Forall2 chosen m l.
Proof.
  induction l as [|[k v] l IH]; intros m; cbn [combinations].
  - split; [intros [<-|[]]; constructor|]. inversion 1. now left.
  - rewrite in_flat_map. split.
    + intros (y & I & H). apply in_map_iff in H. destruct H as (m' & <- & H). constructor; [|now apply IH].
      split; [reflexivity|]. exists y. now split.
    + inversion 1 as [|[k' x] ? m' ? [E (y & I & X)] F]; subst. cbn [fst snd] in *. subst. exists y. split; [exact I|].
      apply in_map_iff. exists m'. split; [reflexivity|]. now apply IH.
Qed.

(** * The libraries of the sanitizers on Windows *)

Definition linked_words (r : run) : bool :=
  forallb (fun p => forallb (fun s =>
    negb (String.eqb (fst s) "CMAKE_EXE_LINKER_FLAGS_INIT") || negb (String.prefix "windows" (r_system r)) ||
    (if list_eq_dec string_dec (command_words Bash (snd s)) runtime_libraries then true else false))
    (c_settings (snd p))) (configurations r).
Lemma all_linked hit : all_of linked_words (workflow_runs (github hit) ci) = true.
Proof. destruct hit; vm_compute; reflexivity. Qed.
Theorem windows_linked hit rs r env c v : workflow_runs (github hit) ci = Some rs -> In r rs ->
  String.prefix "windows" (r_system r) = true -> In (env, c) (configurations r) ->
  In ("CMAKE_EXE_LINKER_FLAGS_INIT", v) (c_settings c) -> command_words Bash v = runtime_libraries.
Proof.
  intros W I P C S. pose proof (all_of_at _ _ rs r (all_linked hit) W I) as H. clear W. unfold linked_words in H.
  rewrite forallb_forall in H. specialize (H _ C). rewrite forallb_forall in H. specialize (H _ S). cbn [fst snd] in H.
  rewrite String.eqb_refl, P in H. cbn [negb orb] in H. now destruct (list_eq_dec _ _ _).
Qed.

(** * The README *)

Theorem documented_listed line major lib : documented line major lib <->
  exists i ms, nth_error readme_compilers i = Some line /\ nth_error listed_versions i = Some ms /\ In major ms /\
    (i = 1%nat -> In lib ["libc++"; "libstdc++"]).
Proof.
  unfold documented, readme_compilers. cbn [In]. split.
  - intros (L & M & B). repeat (destruct L as [<-|L]; [|]); try destruct L.
    all: [> exists 0%nat | exists 1%nat | exists 2%nat | exists 3%nat | exists 4%nat]; eexists; (split; [reflexivity|]);
      (split; [reflexivity|]); (split; [exact M|]); intros E; try discriminate.
    destruct B as [B|B]; [discriminate B|exact B].
  - intros (i & ms & L & V & M & B).
    do 5 (destruct i as [|i]; [injection L as <-; injection V as <-; (split; [tauto|]); (split; [exact M|]);
      first [right; exact (B eq_refl) | left; reflexivity]|]).
    destruct i; discriminate L.
Qed.
