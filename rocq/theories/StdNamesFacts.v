(** Proofs about the names of the standard library. *)
From Coq Require Import NArith Bool List String Lia.
From Verif Require Import StdFwd StdNames StdNamesSpec.
Import ListNotations.
Open Scope string_scope.
Open Scope list_scope.

(** A name is declared before a line. *)
Definition has_name (n : string) (l : list string) : bool := existsb (String.eqb n) l.
Lemma has_name_in n l : has_name n l = true <-> In n l.
Proof.
  unfold has_name. rewrite existsb_exists. split; [intros (x & I & E); apply String.eqb_eq in E; now subst|].
  intros I. exists n. split; [exact I|apply String.eqb_refl].
Qed.
Definition declaredb (s : setting) (n : string) (line : N) : bool :=
  (has_name n (own s) && N.leb own_until line) ||
  existsb (fun h => N.ltb (fst h) line && has_name n (synopsis (snd h) (cxx20 s))) (includes s).
Lemma declaredb_declared s n line : declaredb s n line = true <-> declared s n line.
Proof.
  unfold declaredb, declared. rewrite orb_true_iff, andb_true_iff, has_name_in, N.leb_le, existsb_exists. split.
  - intros [H|((l & h) & I & E)]; [now left|right]. rewrite andb_true_iff, N.ltb_lt, has_name_in in E. exists l, h. cbn in E. tauto.
  - intros [H|(l & h & I & L & N)]; [now left|right]. exists (l, h). split; [exact I|]. now rewrite andb_true_iff, N.ltb_lt, has_name_in.
Qed.

Definition missing_name (s : setting) (n : string) : bool :=
  has_name n ["reference_wrapper"; "ptrdiff_t"] || (negb (forward s) && has_name n ["random_access_iterator_tag"; "contiguous_iterator_tag"]).
(** Most names come from headers that are always included; the others are few. *)
Definition always : list string := synopsis "cstring" false ++ synopsis "type_traits" false ++ synopsis "utility" false ++ synopsis "limits" false ++
  synopsis "exception" false ++ synopsis "cstdint" false ++ synopsis "initializer_list" false.
Lemma always_declared s n line : (14 < line)%N -> In n always -> declared s n line.
Proof.
  intros L I. unfold always in I. rewrite !in_app_iff in I. right.
  destruct I as [I|[I|[I|[I|[I|[I|I]]]]]];
    [exists 7%N, "cstring"|exists 9%N, "type_traits"|exists 10%N, "utility"|exists 11%N, "limits"|exists 12%N, "exception"|exists 13%N, "cstdint"|exists 14%N, "initializer_list"];
    (split; [unfold includes; apply in_or_app; left; cbn; tauto|split; [lia|exact I]]).
Qed.
Definition easy (o : string * list N) : bool := has_name (fst o) always.
Definition few : list (string * list N) := filter (fun o => negb (easy o)) occurrences.
Definition odd_names : list string := ["reference_wrapper"; "ptrdiff_t"; "random_access_iterator_tag"; "contiguous_iterator_tag"].
Lemma easy_not_odd : forallb (fun n => negb (has_name n odd_names)) always = true.
Proof. vm_compute. reflexivity. Qed.
Definition every (f : string -> N -> bool) (l : list (string * list N)) : bool := forallb (fun o => forallb (f (fst o)) (snd o)) l.
Definition right_at (s : setting) (n : string) (line : N) : bool := negb (compiled s line) || xorb (declaredb s n line) (missing_name s n).
Lemma all_late : every (fun _ => N.ltb 14) occurrences = true.
Proof. vm_compute. reflexivity. Qed.
Definition few_now : list (string * list N) := Eval vm_compute in few.
Lemma few_is : few = few_now.
Proof. vm_compute. reflexivity. Qed.
Lemma all_checked s : every (right_at s) few = true.
Proof. rewrite few_is. destruct s as [[] [] [] [] [] [] pe]; vm_compute; reflexivity. Qed.
Lemma missing_exact s n : missing_name s n = true <-> missing s n.
Proof. unfold missing_name, missing. rewrite orb_true_iff, andb_true_iff, !has_name_in, negb_true_iff. reflexivity. Qed.

Lemma missing_odd s n : missing s n -> In n odd_names.
Proof. unfold odd_names. intros [[->|[->|[]]]|[_ [->|[->|[]]]]]; cbn; auto. Qed.

Lemma nested (f : string -> N -> bool) (l : list (string * list N)) n ls line :
  every f l = true -> In (n, ls) l -> In line ls -> f n line = true.
Proof.
  intros A I J. unfold every in A. rewrite forallb_forall in A. specialize (A _ I). cbn [fst snd] in A. rewrite forallb_forall in A. exact (A _ J).
Qed.
Lemma not_easy l n ls : In (n, ls) l -> easy (n, ls) = false -> In (n, ls) (filter (fun o => negb (easy o)) l).
Proof. intros I E. apply filter_In. split; [exact I|]. now rewrite E. Qed.
Lemma is_late n ls line : In (n, ls) occurrences -> In line ls -> (14 < line)%N.
Proof. intros I J. apply N.ltb_lt. exact (nested _ occurrences n ls line all_late I J). Qed.
Lemma is_odd n : In n always -> ~ In n odd_names.
Proof.
  intros I O. pose proof easy_not_odd as E. rewrite forallb_forall in E. specialize (E _ I). apply has_name_in in O. rewrite O in E. discriminate.
Qed.
Lemma is_checked s n ls line : In (n, ls) few -> In line ls -> compiled s line = true -> xorb (declaredb s n line) (missing_name s n) = true.
Proof.
  intros I J C. pose proof (nested (right_at s) few n ls line (all_checked s) I J) as A. unfold right_at in A. rewrite C in A. exact A.
Qed.
Theorem declared_exact s n line : uses s n line -> (declared s n line <-> ~ missing s n).
Proof.
  intros (ls & I & J & C). destruct (easy (n, ls)) eqn:E.
  - assert (A : In n always) by (apply has_name_in; exact E). split.
    + intros _ M. exact (is_odd n A (missing_odd s n M)).
    + intros _. exact (always_declared s n line (is_late n ls line I J) A).
  - pose proof (is_checked s n ls line (not_easy occurrences n ls I E) J C) as A.
    rewrite <- declaredb_declared, <- missing_exact. destruct (declaredb s n line), (missing_name s n); try discriminate.
    + split; [intros _; discriminate|reflexivity].
    + split; [discriminate|now intros []].
Qed.

Lemma included s : forallb (fun h => has_name (snd h) ["ciso646"; "cstring"; "type_traits"; "utility"; "limits"; "exception"; "cstdint"; "initializer_list"; "csignal"; "cstdio";
  "string_view"; "string"; "vector"; "memory"; "array"; "variant"; "complex"]) (includes s) = true.
Proof. destruct s as [x [] [] [] [] [] y]; vm_compute; reflexivity. Qed.
Lemma included_in s l h : In (l, h) (includes s) -> In h ["ciso646"; "cstring"; "type_traits"; "utility"; "limits"; "exception"; "cstdint"; "initializer_list"; "csignal"; "cstdio";
  "string_view"; "string"; "vector"; "memory"; "array"; "variant"; "complex"].
Proof. intros I. apply has_name_in. pose proof (included s) as F. rewrite forallb_forall in F. exact (F _ I). Qed.
Theorem headers_exact s l h : In (l, h) (includes s) -> (standard (cxx20 s) h <-> (h <> "ciso646" \/ cxx20 s = false)).
Proof.
  intros I. apply included_in in I. unfold standard. split.
  - intros [H|[H _]]; [left|now right]. intros ->. apply has_name_in in H. vm_compute in H. discriminate.
  - destruct I as [<-|I]; [intros [H|H]; [now destruct H|right; now split]|]. intros _. left.
    apply has_name_in. revert h I. apply Forall_forall. repeat (apply Forall_cons; [vm_compute; reflexivity|]). apply Forall_nil.
Qed.
Fixpoint entry (n : string) (l : list (string * list N)) : list N :=
  match l with [] => [] | (m, ls) :: r => if String.eqb n m then ls else entry n r end.
Lemma entry_in n l x : In x (entry n l) -> In (n, entry n l) l.
Proof.
  induction l as [|[m ls] l IH]; [contradiction|]. cbn [entry]. destruct (String.eqb n m) eqn:E.
  - apply String.eqb_eq in E. subst m. intros _. now left.
  - intros I. right. now apply IH.
Qed.
Lemma use_at s n line : existsb (N.eqb line) (entry n occurrences) = true -> compiled s line = true -> uses s n line.
Proof.
  intros E C. apply existsb_exists in E. destruct E as (x & I & E). apply N.eqb_eq in E. subst x.
  exists (entry n occurrences). split; [exact (entry_in n occurrences line I)|now split].
Qed.
Theorem tuple_used s : uses s "tuple_element_t" 822 <-> pack_element s = false.
Proof.
  split.
  - intros (ls & _ & _ & C). destruct s as [x [] [] [] [] [] []]; (reflexivity || discriminate).
  - intros P. apply use_at; [reflexivity|]. destruct s as [x [] [] [] [] [] []]; (reflexivity || discriminate).
Qed.
Theorem never_defined s l h n : In (l, h) (includes s) -> In n ["tuple"; "reference_wrapper"] -> ~ defines h n.
Proof.
  intros I N D. apply included_in, has_name_in in I. unfold defines in D.
  destruct D as [D|[D|[D|[]]]]; injection D as <- <-; [|vm_compute in I; discriminate..].
  apply has_name_in in N. vm_compute in N. discriminate.
Qed.
Theorem headers_missing s : cxx20 s = true -> exists l h, In (l, h) (includes s) /\ ~ standard (cxx20 s) h.
Proof.
  intros C. assert (I : In (8%N, "ciso646") (includes s)) by (right; now left). exists 8%N, "ciso646". split; [exact I|].
  rewrite (headers_exact s _ _ I), C. intros [H|H]; [now destruct H|discriminate].
Qed.
Theorem missing_used s : exists l1 l2 l3, uses s "reference_wrapper" l1 /\ ~ declared s "reference_wrapper" l1 /\
  uses s "ptrdiff_t" l2 /\ ~ declared s "ptrdiff_t" l2 /\
  uses s "random_access_iterator_tag" l3 /\ (declared s "random_access_iterator_tag" l3 <-> forward s = true).
Proof.
  exists 640%N, 2413%N, 2410%N.
  assert (A : uses s "reference_wrapper" 640) by (apply use_at; reflexivity).
  assert (B : uses s "ptrdiff_t" 2413) by (apply use_at; reflexivity).
  assert (C : uses s "random_access_iterator_tag" 2410) by (apply use_at; reflexivity).
  rewrite (declared_exact _ _ _ A), (declared_exact _ _ _ B), (declared_exact _ _ _ C). unfold missing.
  repeat split; auto; try (intros H; apply H; left; cbn; tauto).
  - intros H. destruct (forward s); [reflexivity|]. destruct H. right. split; [reflexivity|now left].
  - intros -> [H|[H _]]; [|discriminate]. destruct H as [H|[H|[]]]; discriminate.
Qed.
Theorem declared_ex : let s := mksetting Stl true true true false false false in
  uses s "hash" 4071 /\ declared s "hash" 4071 /\ uses s "construct_at" 650 /\ declared s "construct_at" 650 /\
  ~ uses (mksetting Stl true false true false false false) "construct_at" 650.
Proof.
  cbv zeta. split; [apply use_at; reflexivity|]. split; [apply declaredb_declared; vm_compute; reflexivity|].
  split; [apply use_at; reflexivity|]. split; [apply declaredb_declared; vm_compute; reflexivity|]. intros (ls & _ & _ & C). discriminate.
Qed.
