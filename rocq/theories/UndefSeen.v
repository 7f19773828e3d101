(** What the models call undefined, said without them: pointers, containers, and places that do not exist. *)
From Coq Require Import ZArith NArith Bool List Arith Lia.
From Verif Require Import Outcome Words Ints Types OptBytes Lifetime Lookup ByteProg Alias.
From Verif Require Iter.
Import ListNotations.
Open Scope N_scope.

(** Pointers to one object and one past it: no other pointer can be computed; subtraction and order are for one object. *)
Lemma add_undef p n : Iter.p_add p n = UB <->
  match p with Iter.INull => n <> 0%Z | Iter.IAt _ i => (i + n <> 0 /\ i + n <> 1)%Z end.
Proof.
  destruct p as [|o i]; cbn [Iter.p_add].
  - destruct (n =? 0)%Z eqn:E; [apply Z.eqb_eq in E; split; [discriminate|intros X; contradiction]|apply Z.eqb_neq in E; now split].
  - destruct ((0 <=? i + n)%Z && (i + n <=? 1)%Z) eqn:E.
    + apply andb_true_iff in E. destruct E as [A B]. apply Z.leb_le in A, B. split; [discriminate|lia].
    + apply andb_false_iff in E. rewrite !Z.leb_gt in E. split; [lia|reflexivity].
Qed.
Definition apart (p q : Iter.iptr) : Prop :=
  match p, q with Iter.INull, Iter.INull => False | Iter.IAt o _, Iter.IAt o' _ => o <> o' | _, _ => True end.
Lemma diff_undef p q : Iter.p_diff p q = UB <-> apart p q.
Proof.
  destruct p as [|o i], q as [|o' j]; cbn [Iter.p_diff apart]; try (split; [discriminate|contradiction]); try (split; trivial).
  - destruct (N.eqb o o') eqn:E; [discriminate|]. intros _. now apply N.eqb_neq.
  - intros X. apply N.eqb_neq in X. now rewrite X.
Qed.
Lemma cmp_undef f p q : Iter.p_cmp f p q = UB <-> apart p q.
Proof.
  destruct p as [|o i], q as [|o' j]; cbn [Iter.p_cmp apart]; try (split; [discriminate|contradiction]); try (split; trivial).
  - destruct (N.eqb o o') eqn:E; [discriminate|]. intros _. now apply N.eqb_neq.
  - intros X. apply N.eqb_neq in X. now rewrite X.
Qed.
Lemma deref_undef p : Iter.p_deref p = UB <-> forall o, p <> Iter.IAt o 0.
Proof.
  destruct p as [|o i]; cbn [Iter.p_deref]; [split; [discriminate|reflexivity]|].
  destruct i; split; try discriminate; try reflexivity. intros X. now destruct (X o).
Qed.

(** Elements of containers. *)
Lemma element_undef X (c : list X) i :
  (subscript c i = UB <-> (length c <= N.to_nat i)%nat) /\ (entry c i = UB <-> (length c <= N.to_nat i)%nat) /\
  (front c = UB <-> c = []) /\ (back c = UB <-> c = []).
Proof.
  unfold subscript, entry, front, back, size. repeat split.
  - destruct (i <? N.of_nat (length c)) eqn:E; [discriminate|]. apply N.ltb_ge in E. lia.
  - intros L. destruct (i <? N.of_nat (length c)) eqn:E; [apply N.ltb_lt in E; lia|reflexivity].
  - destruct (i <? N.of_nat (length c)) eqn:E; [discriminate|]. apply N.ltb_ge in E. lia.
  - intros L. destruct (i <? N.of_nat (length c)) eqn:E; [apply N.ltb_lt in E; lia|reflexivity].
  - destruct c; [reflexivity|discriminate].
  - now intros ->.
  - destruct c; [reflexivity|discriminate].
  - now intros ->.
Qed.
Lemma index_undef W (C : cls W) n i (c : cell C) v : (n <= i)%nat -> get_index n i c = Undef /\ variant_get n i v = Undef.
Proof. intros L. unfold get_index, variant_get. apply Nat.ltb_ge in L. now rewrite L. Qed.

(** Calls on variables that do not exist, and of member functions of option on other objects. *)
Lemma no_variable env p m f : nth_error env (fst p) = None -> read env p m = UB /\ update env p f m = UB /\ addr env p m = UB.
Proof. intros N. unfold read, update, addr. now rewrite N. Qed.
Lemma no_option k env p m : (forall t, place_ty env p <> Some (TOption t)) ->
  bstep k env (OReset p) m = UB /\ (forall v, bstep k env (OAssign p v) m = UB /\ bstep k env (OEmplace p v) m = UB /\ bstep k env (OTryEmplace p v) m = UB) /\
  (forall q, bstep k env (OSwap p q) m = UB) /\ bstep k env (OHas p) m = UB /\ bstep k env (OGet p) m = UB /\
  (forall q, rstep k env (RAssign p q) m = UB /\ rstep k env (REmplace p q) m = UB /\ rstep k env (RTryEmplace p q) m = UB).
Proof.
  intros N. cbn [bstep rstep]. unfold on_option. destruct (place_ty env p) as [t|]; [destruct t; try (now destruct (N t))|]; repeat split.
Qed.
Lemma no_step u b : 
  ((forall t, u <> TOption t) -> forall p f, read_path (Deref :: p) u b = UB /\ update_path (Deref :: p) u f b = UB /\ addr_path (Deref :: p) u b = UB) /\
  (forall i, field u i = None -> forall p f, read_path (Field i :: p) u b = UB /\ update_path (Field i :: p) u f b = UB /\ addr_path (Field i :: p) u b = UB).
Proof.
  split.
  - intros N p f. cbn [read_path update_path addr_path]. destruct u; try (now destruct (N u)); now repeat split.
  - intros i N p f. cbn [read_path update_path addr_path]. now rewrite N.
Qed.

From Verif Require MixIter Layers.
(** Comparisons for which there is no operator; layers that do not exist. *)
Lemma compare_undef g c l r p q : MixIter.resolve g c l r = None -> MixIter.compared g c l r p q = UB.
Proof. intros N. unfold MixIter.compared. now rewrite N. Qed.
Lemma layer_undef n t b : (forall u, t <> TOption u) -> Layers.read_at (S n) t b = UB.
Proof. intros N. cbn [Layers.read_at]. destruct t; try reflexivity. now destruct (N t). Qed.
