(** Properties of the documented code equivalents of the functions that read, and of zip and zip_with (C87). *)
From Coq Require Import NArith ZArith List Bool String Lia.
From Verif Require Import Outcome Words Lifetime LifetimeSpec LifetimeFacts Classes ClassesFacts Api Observe Lookup RefOpt Tuple TupleSpec TupleFacts ZipLaws
  DocLang DocSnippets DocSource DocSpec DocFacts DocMembers DocNest DocClasses DocClassFacts
  DocAccess DocAccessSpec DocAccessFacts DocTuple DocTupleSpec DocTupleFacts.
Import ListNotations.
Open Scope list_scope.
Open Scope N_scope.

(** The transcribed code equivalents are the text of docs/reference.md. *)
Theorem C87_text : forall W (A : dcls W),
  (forall c i, lines (value_or A c i) = doc_707) /\ (forall c i, lines (value_or_construct A c i) = doc_733) /\
  lines from_nullable = doc_1219 /\ lines (swap_function A) = doc_1285 /\
  (forall i, lines (DocAccess.get_index A i) = doc_1308) /\ (forall i, lines (DocAccess.get_type A i) = doc_1332) /\
  (forall i, lines (variant_index i) = doc_1357) /\ (forall i, lines (variant_type i) = doc_1383) /\
  (forall X i, lines (at_index (X := X) i) = doc_1477) /\ (forall X, lines (DocAccess.at_front (X := X)) = doc_1516) /\
  (forall X, lines (DocAccess.at_back (X := X)) = doc_1545) /\ lines (flatten2 A) = doc_1580 /\
  (forall X K (f : list X -> K -> N) k, lines (lookup_map f k) = doc_1677) /\
  (forall X K (f : list X -> K -> N) k, lines (lookup_set f k) = doc_1686) /\
  (forall h d, lines (hash_function A h d) = doc_2132).
Proof. exact text_access. Qed.
Print Assumptions C87_text.
Theorem C87_text_zip : forall W (As : list (dcls W)),
  (forall tf cs, lines (DocTuple.zip tf As cs) = doc_1119) /\ (forall B g, lines (zip_with As B g) = doc_1154).
Proof. exact text_zip. Qed.
Print Assumptions C87_text_zip.

(** at, at_front, at_back and lookup, with any container. *)
Theorem C87_containers : forall X (c : list X),
  (forall i, reads c (at_ c i) (returned (exec (at_index i) c))) /\
  reads c (Lookup.at_front c) (returned (exec DocAccess.at_front c)) /\
  reads c (Lookup.at_back c) (returned (exec DocAccess.at_back c)).
Proof. exact containers_rel. Qed.
Print Assumptions C87_containers.
Theorem C87_lookup : forall X K (find : list X -> K -> N) c k it, find c k <= N.of_nat (List.length c) ->
  reads (c, find c k) (lookup find c k) (returned (exec (lookup_map find k) (c, it))) /\
  reads (c, find c k) (lookup find c k) (returned (exec (lookup_set find k) (c, it))).
Proof. exact @lookup_rel. Qed.
Print Assumptions C87_lookup.
(** The position of the first equal element. *)
Fixpoint position (l : list N) (k : N) : N := match l with [] => 0 | x :: l => if x =? k then 0 else 1 + position l k end.
Example C87_containers_ex :
  exec (at_index 1) [4; 5; 6] = Got (Some (Some 1)) [4; 5; 6] /\ at_ [4; 5; 6] 3 = Ok None /\ Lookup.at_back [4; 5; 6] = Ok (Some 2) /\
  position [4; 5; 6] 9 <= N.of_nat (List.length [4; 5; 6]) /\
  exec (lookup_set position 6) ([4; 5; 6], 0) = Got (Some (Some 2)) ([4; 5; 6], 2) /\ lookup position [4; 5; 6] 6 = Ok (Some 2) /\
  lookup position [4; 5; 6] 9 = Ok None.
Proof. vm_compute. repeat split. discriminate. Qed.

(** from_nullable. *)
Theorem C87_from_nullable : forall p o, is_pointer p o ->
  exists r, returned (exec from_nullable o) = Got r o /\ is_pointer (r_from_nullable p) r.
Proof. exact nullable_rel. Qed.
Print Assumptions C87_from_nullable.
Example C87_from_nullable_ex : is_pointer 64 (Some 64) /\ is_pointer 0 None /\
  exec from_nullable (Some 64) = Got (Some (Some 64)) (Some 64) /\ r_from_nullable 64 = 64.
Proof. repeat split. discriminate. Qed.

(** get of a variant: by position, and by a type that occurs once. *)
Theorem C87_variant : forall v p,
  (forall n i, (i < n)%nat ->
    exists r q, variant_get n i v = Ret r /\ returned (exec (variant_index i) (v, p)) = Got r (v, q)) /\
  (forall t ts i, only_at t ts i ->
    exists r q, variant_get_type t ts v = Ret r /\ returned (exec (variant_type i) (v, p)) = Got r (v, q)).
Proof. exact variants_rel. Qed.
Print Assumptions C87_variant.
Example C87_variant_ex : only_at 7 [5; 7; 6]%nat 1 /\ variant_get_type 7 [5; 7; 6]%nat (Some 1%nat) = Ret (Some 1%nat) /\
  variant_get 3 0 (Some 1%nat) = Ret None /\ returned (exec (variant_index 0) (Some 1%nat, None)) = Got None (Some 1%nat, None).
Proof.
  split; [ | repeat split ]. split; [ reflexivity | ]. intros [ | [ | [ | [ | j]]]] H; cbn in H; congruence.
Qed.

(** value_or and value_or_construct; the world records every call of a function of T. *)
Theorem C87_value_or : forall W (C : cls W) (S : sem C) (A : dcls W) (R : raw C -> obj A -> Prop) (I : init C -> darg A -> Prop),
  lawful C S -> same C S A R I ->
  forall p i j r c t w, I i j -> orel S R c t ->
  agree (fun p y q => R (fst p) y /\ srel C S A R (snd p) q) (fun p q => srel C S A R (snd p) q)
    (a_value_or C p i r (c, w)) (returned (exec (value_or A (category_of p) j) (t, w))) /\
  agree (fun p y q => R (fst p) y /\ srel C S A R (snd p) q) (fun p q => srel C S A R (snd p) q)
    (a_value_or C p i r (c, w)) (returned (exec (value_or_construct A (category_of p) j) (t, w))).
Proof. exact @value_or_rel. Qed.
Print Assumptions C87_value_or.

(** The function swap. *)
Theorem C87_swap : forall W (C : cls W) (S : sem C) (A : dcls W) (R : raw C -> obj A -> Prop) (I : init C -> darg A -> Prop),
  lawful C S -> quiet C S -> same C S A R I ->
  forall a x b y w, orel S R a x -> orel S R b y ->
  agree (fun p _ q => orel S R (fst p) (fst q) /\ srel C S A R (snd p) (snd q))
        (fun p q => orel S R (fst p) (fst q) /\ srel C S A R (snd p) (snd q))
    (o_swap C a (b, w)) (exec (swap_function A) (x, (y, w))).
Proof. exact @swap_function_rel. Qed.
Print Assumptions C87_swap.

(** get of an option of a tuple: by position, and by a type that occurs once. *)
Theorem C87_get : forall W (C : cls W) (S : sem C) (A : dcls W) (R : raw C -> obj A -> Prop), lawful C S ->
  forall c o, orel S R c o ->
  (forall n i, (i < n)%nat -> exists r, Lookup.get_index n i c = Ret r /\ returned (exec (DocAccess.get_index A i) o) = Got r o) /\
  (forall t ts i, only_at t ts i -> exists r, Lookup.get_type t ts c = Ret r /\ returned (exec (DocAccess.get_type A i) o) = Got r o).
Proof. exact @gets_of_rel. Qed.
Print Assumptions C87_get.

(** flatten of an option of an option. *)
Theorem C87_flatten : forall W (C : cls W) (S : sem C) (A : dcls W) (R : raw C -> obj A -> Prop),
  (forall n, lawful (nest_cls n C) (nest_sem n C S)) ->
  forall (c : raw (nest_cls 2 C)) (o : option (option (obj A))), nrel S R 2 c o ->
  exists r, returned (exec (flatten2 A) o) = Got r o /\
    match a_flatten C 1 c, r with
    | Ret (Some x), Some y => R x y
    | Ret None, None => True
    | _, _ => False
    end.
Proof. exact flatten_rel. Qed.
Print Assumptions C87_flatten.

(** std::hash, when the number that the documentation leaves open is 0. *)
Theorem C87_hash : forall W (C : cls W) (S : sem C) (A : dcls W) (R : raw C -> obj A -> Prop), lawful C S ->
  forall h k c o,
  (forall r x, R r x -> agree (fun n m _ => n = m) (fun _ _ => True) (h r) (k x)) -> orel S R c o ->
  agree (fun n m q => n = m /\ q = o) (fun _ q => q = o) (c_hash h c) (returned (exec (hash_function A k 0) o)).
Proof. exact @hash_rel. Qed.
Print Assumptions C87_hash.

(** Numbers kept as v + 3 in an option without a flag; calls of functions of the class throw as the world says. *)
Definition N3 : cls schedule := fussy 3 false.
Definition NS3 : sem N3 := fussy_sem 3 false.
Definition keeps (v : N) : cell N3 := mkcell (C := N3) (v + 3) 0 true.
Definition keeps_none : cell N3 := mkcell (C := N3) 0 0 false.
Example C87_members_ex :
  lawful N3 NS3 /\ quiet N3 NS3 /\ same N3 NS3 fussy_doc (fussy_is 3 false) (fussy_arg 3 false) /\
  orel (A := fussy_doc) NS3 (fussy_is 3 false) (keeps 5) (Some 5) /\ orel (A := fussy_doc) NS3 (fussy_is 3 false) keeps_none None /\
  fussy_arg 3 false 8 8 /\
  a_value_or N3 ByMove 8 0 (keeps 5, [false]) = Ret (8, (keeps 0, [])) /\
  exec (value_or fussy_doc Rvalue 8) (Some 5, [false]) = Got (Some 5) (Some 0, []) /\
  a_value_or N3 ByMove 8 0 (keeps_none, [true]) = Exn (0, (keeps_none, [])) /\
  returned (exec (value_or_construct fussy_doc Rvalue 8) (None, [true])) = Thrown (None, []) /\
  Lookup.get_index 2 1 (keeps 5) = Ret (Some 1%nat) /\ exec (DocAccess.get_index fussy_doc 1) (Some 5) = Got (Some (Some 1%nat)) (Some 5) /\
  c_hash (C := N3) (fun r : raw N3 => Ret (7 * (r - 3))) (keeps 5) = Ret 35 /\
  exec (hash_function fussy_doc (fun x => Got (7 * x) tt) 0) (Some 5) = Got (Some 35) (Some 5).
Proof.
  split. { apply fussy_lawful. reflexivity. } split. { apply fussy_quiet. now right. } split; [ apply fussy_same | ].
  split. { split; [ | now split ]. split; [ intros _; cbn; lia | ]. split; cbn; [ intros _ H; discriminate H | discriminate ]. }
  split. { split; [ | reflexivity ]. split; cbn; [ discriminate | ]. split; [ reflexivity | intros; discriminate ]. }
  repeat split.
Qed.
Example C87_flatten_ex : (forall n, lawful (nest_cls n (plain 1)) (nest_sem n (plain 1) (plain_sem 1))) /\
  nrel (A := plain_doc) (plain_sem 1) (plain_is 1) 2
    (mkcell (C := opt_cls (plain 1)) (mkcell (C := plain 1) 4 1 true) 1 true) (Some (Some 4)) /\
  exec (flatten2 plain_doc) (Some (Some 4)) = Got (Some (Some 4)) (Some (Some 4)) /\
  a_flatten (plain 1) 1 (mkcell (C := opt_cls (plain 1)) (mkcell (C := plain 1) 4 1 true) 1 true) = Ret (Some 4).
Proof.
  split. { intros n. apply (nest_all unit (plain 1) (plain_sem 1) plain_doc (plain_is 1) (plain_arg 1)); [ apply plain_lawful | apply plain_steady | apply plain_same ]. }
  split; [ | split; reflexivity ].
  assert (H : orel (A := plain_doc) (plain_sem 1) (plain_is 1) (mkcell (C := plain 1) 4 1 true) (Some 4)).
  { split; [ | split; [ reflexivity | now split ] ]. split; [ intros _ _; discriminate | ]. split; cbn; [ intros _ K; discriminate K | discriminate ]. }
  split; [ | split; [ reflexivity | exact H ] ]. split; [ intros _; apply H | ]. split; [ intros K; vm_compute in K; discriminate K | reflexivity ].
Qed.

(** zip_with, with any number of options and any function; the function may change the contained objects. *)
Theorem C87_zip_with : forall W (count : W -> Z) (l : list (item W)), Forall (good count) l ->
  forall (D : cls W) (T : sem D) (B : dcls W) (R : raw D -> obj B -> Prop) (I : init D -> darg B -> Prop),
  lawful D T -> same D T B R I -> forall f g, same_function l D B R f g ->
  forall t d cs os w, options_rel l cs os ->
  agree (zipped l T R) (zip_thrown l) (a_zip_with (map i_cls l) D f t d (cs, w)) (returned (exec (zip_with (map i_doc l) B g) (os, w))).
Proof. exact @zip_with_rel. Qed.
Print Assumptions C87_zip_with.
(** zip, with any number of options, each an lvalue or an rvalue. *)
Theorem C87_zip : forall W (count : W -> Z) (sh : shape) (l : list (item W)) ps t d cs os w, Forall (good count) l -> options_rel l cs os ->
  agree (zipped l (tuple_sem count sh (map i_cls l) (isems l)) (tuple_rel sh l)) (zip_thrown l)
    (a_zip sh (map i_cls l) ps t d (cs, w))
    (returned (exec (DocTuple.zip (tail_first sh) (map i_doc l) (map category_of ps)) (os, w))).
Proof. exact @zip_rel. Qed.
Print Assumptions C87_zip.
(** Tuples of classes that are the same on both sides are, so tuples may hold tuples, and options tuples. *)
Theorem C87_tuple : forall W (count : W -> Z) (sh : shape) (l : list (item W)), Forall (good count) l ->
  same (tuple_cls sh (map i_cls l)) (tuple_sem count sh (map i_cls l) (isems l)) (doc_tuple (tail_first sh) (map i_doc l))
    (tuple_rel sh l) (tuple_arg sh l).
Proof. exact @tuple_same. Qed.
Print Assumptions C87_tuple.

(** Three options; the second copy throws. *)
Definition none_of (_ : schedule) : Z := 0%Z.
Definition kept (m : N) : item schedule := mkitem (fussy m false) (fussy_sem m false) fussy_doc (fussy_is m false) (fussy_arg m false).
Definition three : list (item schedule) := [kept 3; kept 0; kept 2].
Definition zip_shape : shape := mkshape true false.
Definition full3 : cells (map i_cls three) :=
  (mkcell (C := fussy 3 false) (8 : N) 0 true,
    (mkcell (C := fussy 0 false) (6 : N) 1 true, (mkcell (C := fussy 2 false) (9 : N) 0 true, tt))).
Definition full3_doc : options (map i_doc three) := (Some 5, (Some 6, (Some 7, tt))).
Definition room : raw (tuple_cls zip_shape (map i_cls three)) := (0, (0, (0, tt))).
Example C87_zip_ex :
  Forall (good none_of) three /\ options_rel three full3 full3_doc /\
  exec (DocTuple.zip true (map i_doc three) [Lvalue; Rvalue]) (full3_doc, []) = Got (Some (Some (5, (6, (7, tt))))) ((Some 5, (Some 0, (Some 7, tt))), []) /\
  returned (exec (DocTuple.zip true (map i_doc three) [Lvalue; Rvalue]) (full3_doc, [false; true])) = Thrown (full3_doc, []) /\
  a_zip zip_shape (map i_cls three) [ByCopy; ByMove] room (mkcell room 0 false) (full3, [false; true]) = Exn (mkcell room 0 false, (full3, [])).
Proof.
  assert (K : forall m, m < umax_base -> good none_of (kept m)).
  { intros m H. split; [ now apply fussy_element | apply fussy_same ]. }
  split. { constructor; [ | constructor; [ | constructor; [ | constructor ] ] ]; apply K; reflexivity. }
  split. { repeat split; cbn; intros; try discriminate; lia. }
  repeat split.
Qed.
