(** Runs of CMakeLists.txt from the states that [ready] describes. *)
From Coq Require Import Bool List Ascii String.
From Verif Require Import CMakeLang CMakeSource CMakeFiles CMakeRules CMakeSym CMakeSpec CMakeFacts.
Import ListNotations.
Open Scope string_scope.
Open Scope list_scope.

Lemma mem_in x l : mem x l = true <-> In x l.
Proof.
  unfold mem. rewrite existsb_exists. split.
  - intros (y & H & E). apply String.eqb_eq in E. now subst.
  - intros H. exists x. split; auto. apply String.eqb_refl.
Qed.
Lemma not_mem x l : ~ In x l -> mem x l = false.
Proof. intros H. destruct (mem x l) eqn:E; auto. now apply mem_in in E. Qed.
Lemma assoc_in l x v : assoc l x = Some v -> In (x, v) l.
Proof.
  induction l as [|[y w] l IH]; cbn; [discriminate|]. destruct (String.eqb x y) eqn:E.
  - intros H. injection H as <-. apply String.eqb_eq in E. subst. now left.
  - intros H. right. now apply IH.
Qed.
Definition base_in (d : string) (ts : list string) (vs : list (string * string)) (e : site) : base :=
  mkbase (map (fun p => (fst p, Some [snd p])) (vs ++ machine e) ++ map (setting e) settings ++ map (fun x => (x, None)) unset)
    searched arguments (ts ++ own_targets) downloads d (s_excl e) (s_opts e) (s_links e).
Lemma ready_fits_in d ts vs h e st : ready_in d ts h e st -> (forall x s, In (x, s) vs -> lookup st x = Some [s]) ->
  fits h (base_in d ts vs e) st.
Proof.
  intros R V. constructor.
  - intros x v H. apply assoc_in in H. cbn [base_in b_vals] in H. rewrite !in_app_iff in H.
    destruct H as [H|[H|H]].
    + apply in_map_iff in H as ([y s] & E & H). injection E as <- <-. apply in_app_iff in H as [H|H]; [now apply V|].
      now apply (y_machine d ts h e st R).
    + apply in_map_iff in H as (y & E & H). injection E as <- <-. now apply (y_settings d ts h e st R).
    + apply in_map_iff in H as (y & E & H). injection E as <- <-. now apply (y_unset d ts h e st R).
  - intros x H. apply (y_searched d ts h e st R). now apply mem_in.
  - intros x H. apply (y_arguments d ts h e st R). now apply mem_in.
  - intros t H. apply (y_free d ts h e st R). now apply mem_in.
  - intros t p H. apply not_mem. apply (y_free d ts h e st R). now apply mem_in.
  - intros p t H. apply mem_in. apply (y_downloads d ts h e st R). unfold gives in H.
    apply existsb_exists in H as ([q u] & I & E). cbn in E. apply andb_prop in E as [E1 E2].
    apply String.eqb_eq in E1, E2. now subst.
  - apply R.
  - apply R.
  - apply R.
  - apply R.
  - apply R.
  - apply R.
Qed.
Lemma ready_fits h e st : ready h e st -> fits h (site_base e) st.
Proof. intros R. apply (ready_fits_in "/src" [] [] h e st R). intros x s []. Qed.

Lemma run_root_eq h e : run_root h e = sexec h (find_file source_tree) (site_base e) 100 TNil root_cmake.
Proof. reflexivity. Qed.
Lemma told_of_some x l : told_of x = Some l -> exists d f, x = Some (d, f) /\ told_onto d [] = l.
Proof. destruct x as [[d f]|]; cbn; [|discriminate]. intros E. injection E as E. eauto. Qed.

Theorem root_run h e st : ready h e st ->
  exists st' f, runs h (find_file source_tree) st root_cmake (Done st' f) /\ record st' = record st ++ expected h e.
Proof.
  intros R. destruct (told_expected h e) as (l & E & Ee). apply told_of_some in E as (d & f & Er & E).
  rewrite run_root_eq in Er.
  destruct (sym_sound h (find_file source_tree) (site_base e) st (ready_fits h e st R) _ _ _ _ Er) as (fl & Hr).
  exists (apply d st), fl. split; [exact Hr|]. rewrite record_apply, <- Ee, <- E, told_onto_eq, app_nil_r. reflexivity.
Qed.

(** * Projects that use the library *)

Lemma sym_record h files k st n l d f r : fits h k st -> sexec h files k n TNil l = Some (d, f) -> told_onto d [] = r ->
  exists st' fl, runs h files st l (Done st' fl) /\ record st' = record st ++ r.
Proof.
  intros F E <-. destruct (sym_sound h files k st F _ _ _ _ E) as (fl & Hr).
  exists (apply d st), fl. split; [exact Hr|]. now rewrite record_apply, told_onto_eq, app_nil_r.
Qed.
Definition told_then (x : option (trace * sflow)) (l : list event) : option (list event) :=
  match x with Some (d, _) => Some (told_onto d l) | None => None end.
Lemma told_then_of x l r : told_of x = Some l -> told_then x r = Some (l ++ r).
Proof. destruct x as [[d f]|]; cbn; [|discriminate]. intros E. injection E as <-. now rewrite !told_onto_eq, app_nil_r. Qed.
Lemma root_then h e r : told_then (run_root h e) r = Some (expected h e ++ r).
Proof. destruct (told_expected h e) as (l & E & <-). now apply told_then_of. Qed.
