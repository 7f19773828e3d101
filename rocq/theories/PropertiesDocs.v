(** Properties of the documented code equivalents (C79). *)
From Coq Require Import NArith ZArith List Bool String Lia.
From Verif Require Import Outcome Lifetime LifetimeSpec LifetimeFacts Classes ClassesFacts Api DocLang DocSnippets DocSource DocText
  DocSpec DocFacts DocMembers DocNest DocProg DocProgFacts DocClasses DocClassFacts.
Import ListNotations.
Open Scope list_scope.

(** The transcribed code equivalents are the text of docs/reference.md. *)
Theorem C79_text_members : forall W (A : dcls W),
  lines (copy_constructor A) = doc_55 /\ lines (move_constructor A) = doc_77 /\
  lines (copy_assignment A) = doc_247 /\ lines (move_assignment A) = doc_280 /\
  (forall i, lines (value_assignment A i) = doc_313) /\ (forall i, lines (emplace A i) = doc_434) /\
  (forall i, lines (try_emplace A i) = doc_453) /\ (forall p, lines (has_value_and A p) = doc_490) /\
  (forall e, lines (take A e) = doc_522) /\ (forall e p, lines (take_if A e p) = doc_557) /\
  (forall f, lines (inspect A f) = doc_601) /\ (forall c p, lines (filter_member A c p) = doc_852) /\
  (forall c f, lines (or_else A c f) = doc_979) /\ lines (swap_member A) = doc_1019 /\
  (forall l r, lines (or_options A l r) = doc_1729) /\ (forall c, lines (or_assign A c) = doc_1771) /\
  (forall i, lines (or_assign_value A i) = doc_1771) /\ (forall l r, lines (xor_options A l r) = doc_1834).
Proof. exact text_members. Qed.
Print Assumptions C79_text_members.
Theorem C79_text_two : forall W (A B : dcls W),
  (forall f g, lines (conv_constructor A B Lvalue f g) = doc_169) /\ (forall f g, lines (conv_constructor A B Rvalue f g) = doc_196) /\
  (forall f g, lines (conv_assignment A B Lvalue f g) = doc_344) /\ (forall f g, lines (conv_assignment A B Rvalue f g) = doc_382) /\
  (forall i f, lines (map_or A B i f) = doc_755) /\ (forall g f, lines (map_or_else A B g f) = doc_790) /\
  (forall f, lines (and_then A B f) = doc_900) /\ (forall f, lines (map_member A B f) = doc_943) /\
  (forall f, lines (option_cast A B f) = doc_1191) /\ (forall r, lines (and_options A B r) = doc_1792).
Proof. exact text_two. Qed.
Print Assumptions C79_text_two.

(** The copy constructor.  The world records every call of a function of T. *)
Theorem C79_copy_constructor : forall W (C : cls W) (S : sem C) (A : dcls W) (R : raw C -> obj A -> Prop) (I : init C -> darg A -> Prop),
  lawful C S -> quiet C S -> same C S A R I ->
  forall s o c w, orel S R s o ->
  agree (fun p _ q => orel S R (fst p) (fst q) /\ fst (snd q) = o /\ snd p = snd (snd q)) (fun p q => fst (snd q) = o /\ snd p = snd (snd q))
    (o_cctor C s c w) (exec (copy_constructor A) (None, (o, w))).
Proof. exact @copy_constructor_rel. Qed.
Print Assumptions C79_copy_constructor.

(** The move constructor. *)
Theorem C79_move_constructor : forall W (C : cls W) (S : sem C) (A : dcls W) (R : raw C -> obj A -> Prop) (I : init C -> darg A -> Prop),
  lawful C S -> quiet C S -> same C S A R I ->
  forall s o c w, orel S R s o ->
  agree (fun p _ q => orel S R (fst p) (fst q) /\ srel C S A R (snd p) (snd q)) (fun p q => srel C S A R (snd p) (snd q))
    (o_mctor C c (s, w)) (exec (move_constructor A) (None, (o, w))).
Proof. exact @move_constructor_rel. Qed.
Print Assumptions C79_move_constructor.

(** The copy assignment. *)
Theorem C79_copy_assignment : forall W (C : cls W) (S : sem C) (A : dcls W) (R : raw C -> obj A -> Prop) (I : init C -> darg A -> Prop),
  lawful C S -> quiet C S -> same C S A R I ->
  forall s o c t w, orel S R s o -> orel S R c t ->
  agree (fun p _ q => orel S R (fst p) (fst q) /\ fst (snd q) = o /\ snd p = snd (snd q))
        (fun p q => orel S R (fst p) (fst q) /\ fst (snd q) = o /\ snd p = snd (snd q))
    (o_cassign C s c w) (exec (copy_assignment A) (t, (o, w))).
Proof. exact @copy_assignment_rel. Qed.
Print Assumptions C79_copy_assignment.

(** The move assignment. *)
Theorem C79_move_assignment : forall W (C : cls W) (S : sem C) (A : dcls W) (R : raw C -> obj A -> Prop) (I : init C -> darg A -> Prop),
  lawful C S -> quiet C S -> same C S A R I ->
  forall s o c t w, orel S R s o -> orel S R c t ->
  agree (fun p _ q => orel S R (fst p) (fst q) /\ srel C S A R (snd p) (snd q)) (fun p q => orel S R (fst p) (fst q) /\ srel C S A R (snd p) (snd q))
    (o_massign C c (s, w)) (exec (move_assignment A) (t, (o, w))).
Proof. exact @move_assignment_rel. Qed.
Print Assumptions C79_move_assignment.

(** The assignment of a value. *)
Theorem C79_value_assignment : forall W (C : cls W) (S : sem C) (A : dcls W) (R : raw C -> obj A -> Prop) (I : init C -> darg A -> Prop),
  lawful C S -> quiet C S -> same C S A R I ->
  forall i j c t w, I i j -> orel S R c t ->
  agree (fun p _ q => srel C S A R p q) (srel C S A R) (o_asgn C (IVal i) c w) (exec (value_assignment A j) (t, w)).
Proof. exact @value_assignment_rel. Qed.
Print Assumptions C79_value_assignment.

(** emplace and try_emplace. *)
Theorem C79_emplace : forall W (C : cls W) (S : sem C) (A : dcls W) (R : raw C -> obj A -> Prop) (I : init C -> darg A -> Prop),
  lawful C S -> quiet C S -> same C S A R I ->
  forall i j c t w, I i j -> orel S R c t ->
  agree (fun p _ q => srel C S A R p q) (srel C S A R) (o_emplace C (o_reset C) (ctor C i) c w) (exec (emplace A j) (t, w)).
Proof. exact @emplace_rel. Qed.
Print Assumptions C79_emplace.

Theorem C79_try_emplace : forall W (C : cls W) (S : sem C) (A : dcls W) (R : raw C -> obj A -> Prop) (I : init C -> darg A -> Prop),
  lawful C S -> quiet C S -> same C S A R I ->
  forall i j c t w, I i j -> orel S R c t ->
  agree (fun p _ q => srel C S A R p q) (srel C S A R) (o_try_emplace C i c w) (exec (try_emplace A j) (t, w)).
Proof. exact @try_emplace_rel. Qed.
Print Assumptions C79_try_emplace.

(** swap. *)
Theorem C79_swap : forall W (C : cls W) (S : sem C) (A : dcls W) (R : raw C -> obj A -> Prop) (I : init C -> darg A -> Prop),
  lawful C S -> quiet C S -> same C S A R I ->
  forall a x b y w, orel S R a x -> orel S R b y ->
  agree (fun p _ q => orel S R (fst p) (fst q) /\ srel C S A R (snd p) (snd q)) (fun p q => orel S R (fst p) (fst q) /\ srel C S A R (snd p) (snd q))
    (o_swap C a (b, w)) (exec (swap_member A) (x, (y, w))).
Proof. exact @swap_rel. Qed.
Print Assumptions C79_swap.

(** take and take_if, with or without elision of the copy of the local variable. *)
Theorem C79_take : forall W (C : cls W) (S : sem C) (A : dcls W) (R : raw C -> obj A -> Prop) (I : init C -> darg A -> Prop),
  lawful C S -> quiet C S -> same C S A R I ->
  forall elided d s o w, orel S R s o ->
  agree (fun p r q => orel S R (fst p) r /\ fst (snd q) = None /\ srel C S A R (snd p) (fst q, snd (snd q)))
        (fun p q => srel C S A R (snd p) (fst q, snd (snd q)))
    (o_take C elided d (s, w)) (returned (exec (take A elided) (o, (None, w)))).
Proof. exact @take_rel. Qed.
Print Assumptions C79_take.

Theorem C79_take_if : forall W (C : cls W) (S : sem C) (A : dcls W) (R : raw C -> obj A -> Prop) (I : init C -> darg A -> Prop),
  lawful C S -> quiet C S -> same C S A R I ->
  forall elided f g d s o w, same_predicate C A R f g -> orel S R s o ->
  agree (fun p r q => orel S R (fst p) r /\ fst (snd q) = None /\ srel C S A R (snd p) (fst q, snd (snd q)))
        (fun p q => srel C S A R (snd p) (fst q, snd (snd q)))
    (o_take_if C elided f d (s, w)) (returned (exec (take_if A elided g) (o, (None, w)))).
Proof. exact @take_if_rel. Qed.
Print Assumptions C79_take_if.

(** has_value_and, inspect, filter and or_else. *)
Theorem C79_has_value_and : forall W (C : cls W) (S : sem C) (A : dcls W) (R : raw C -> obj A -> Prop) (I : init C -> darg A -> Prop),
  lawful C S -> same C S A R I ->
  forall f g c t w, same_predicate C A R f g -> orel S R c t ->
  agree (fun p b q => fst (snd p) = b /\ srel C S A R (fst p, snd (snd p)) q) (fun p q => srel C S A R (fst p, snd (snd p)) q)
    (a_has_value_and C f c w) (returned (exec (has_value_and A g) (t, w))).
Proof. exact @has_value_and_rel. Qed.
Print Assumptions C79_has_value_and.

Theorem C79_inspect : forall W (C : cls W) (S : sem C) (A : dcls W) (R : raw C -> obj A -> Prop) (I : init C -> darg A -> Prop),
  lawful C S -> same C S A R I ->
  forall f g c t w, same_visitor C A R f g -> orel S R c t ->
  agree (fun p _ q => srel C S A R p q) (srel C S A R) (a_inspect C f c w) (returned (exec (inspect A g) (t, w))).
Proof. exact @inspect_rel. Qed.
Print Assumptions C79_inspect.

Theorem C79_filter : forall W (C : cls W) (S : sem C) (A : dcls W) (R : raw C -> obj A -> Prop) (I : init C -> darg A -> Prop),
  lawful C S -> same C S A R I ->
  forall p f g d s o w, same_predicate C A R f g -> orel S R s o ->
  agree (result C S A R) (thrown C S A R) (a_filter C p f d (s, w)) (returned (exec (filter_member A (category_of p) g) (o, w))).
Proof. exact @filter_rel. Qed.
Print Assumptions C79_filter.

Theorem C79_or_else : forall W (C : cls W) (S : sem C) (A : dcls W) (R : raw C -> obj A -> Prop) (I : init C -> darg A -> Prop),
  lawful C S -> quiet C S -> same C S A R I ->
  forall p f g d s o w,
  (forall d w, agree (fun p o w => orel S R (fst p) o /\ snd p = w) (fun p w => snd p = w) (f d w) (g w)) -> orel S R s o ->
  agree (result C S A R) (thrown C S A R) (a_or_else C p f d (s, w)) (returned (exec (or_else A (category_of p) g) (o, w))).
Proof. exact @or_else_rel. Qed.
Print Assumptions C79_or_else.

(** The operators. *)
Theorem C79_or : forall W (C : cls W) (S : sem C) (A : dcls W) (R : raw C -> obj A -> Prop) (I : init C -> darg A -> Prop),
  lawful C S -> quiet C S -> same C S A R I ->
  forall pl pr d a x b y w, orel S R a x -> orel S R b y ->
  agree (result2 C S A R) (thrown2 C S A R) (a_or C pl pr d a b w) (returned (exec (or_options A (category_of pl) (category_of pr)) (x, (y, w)))).
Proof. exact @or_rel. Qed.
Print Assumptions C79_or.

Theorem C79_xor : forall W (C : cls W) (S : sem C) (A : dcls W) (R : raw C -> obj A -> Prop) (I : init C -> darg A -> Prop),
  lawful C S -> quiet C S -> same C S A R I ->
  forall pl pr d a x b y w, orel S R a x -> orel S R b y ->
  agree (result2 C S A R) (thrown2 C S A R) (a_xor C pl pr d a b w) (returned (exec (xor_options A (category_of pl) (category_of pr)) (x, (y, w)))).
Proof. exact @xor_rel. Qed.
Print Assumptions C79_xor.

Theorem C79_or_assign_copy : forall W (C : cls W) (S : sem C) (A : dcls W) (R : raw C -> obj A -> Prop) (I : init C -> darg A -> Prop),
  lawful C S -> quiet C S -> same C S A R I ->
  forall s o c t w, orel S R s o -> orel S R c t ->
  agree (fun p _ q => orel S R (fst p) (fst q) /\ fst (snd q) = o /\ snd p = snd (snd q))
        (fun p q => orel S R (fst p) (fst q) /\ fst (snd q) = o /\ snd p = snd (snd q))
    (a_or_assign_copy C s c w) (returned (exec (or_assign A Lvalue) (t, (o, w)))).
Proof. exact @or_assign_copy_rel. Qed.
Print Assumptions C79_or_assign_copy.

Theorem C79_or_assign_move : forall W (C : cls W) (S : sem C) (A : dcls W) (R : raw C -> obj A -> Prop) (I : init C -> darg A -> Prop),
  lawful C S -> quiet C S -> same C S A R I ->
  forall s o c t w, orel S R s o -> orel S R c t ->
  agree (fun p _ q => orel S R (fst p) (fst q) /\ srel C S A R (snd p) (snd q)) (fun p q => orel S R (fst p) (fst q) /\ srel C S A R (snd p) (snd q))
    (a_or_assign_move C c (s, w)) (returned (exec (or_assign A Rvalue) (t, (o, w)))).
Proof. exact @or_assign_move_rel. Qed.
Print Assumptions C79_or_assign_move.

Theorem C79_or_assign_value : forall W (C : cls W) (S : sem C) (A : dcls W) (R : raw C -> obj A -> Prop) (I : init C -> darg A -> Prop),
  lawful C S -> quiet C S -> same C S A R I ->
  forall i j c t w, I i j -> orel S R c t ->
  agree (fun p _ q => srel C S A R p q) (srel C S A R) (a_or_assign C (IVal i) c w) (returned (exec (or_assign_value A j) (t, w))).
Proof. exact @or_assign_value_rel. Qed.
Print Assumptions C79_or_assign_value.

(** A case of the above: numbers kept as v + 3 in an option without a flag; the third call of a function of the class
    throws.  x = std::move(y) succeeds, x.emplace(8) throws and leaves x empty, in the same way on both sides. *)
Open Scope N_scope.
Definition T3 : cls schedule := fussy 3 false.
Definition S3 : sem T3 := fussy_sem 3 false.
Definition holds3 (v : N) : cell T3 := mkcell (C := T3) (v + 3) 0 true.
Example C79_ex :
  lawful T3 S3 /\ quiet T3 S3 /\ same T3 S3 fussy_doc (fussy_is 3 false) (fussy_arg 3 false) /\
  orel (A := fussy_doc) S3 (fussy_is 3 false) (holds3 5) (Some 5) /\ orel (A := fussy_doc) S3 (fussy_is 3 false) (holds3 7) (Some 7) /\
  (exists x y, o_massign T3 (holds3 5) (holds3 7, [false; true]) = Ret (x, (y, [true])) /\
    exec (move_assignment fussy_doc) (Some 5, (Some 7, [false; true])) = Got None (Some 7, (Some 0, [true])) /\
    x = holds3 7 /\ y = holds3 0) /\
  (exists x, o_emplace T3 (o_reset T3) (ctor T3 8) (holds3 7) [true] = Exn (x, []) /\ o_has T3 x = Ok false /\
    exec (emplace fussy_doc 8) (Some 7, [true]) = Thrown (None, [])).
Proof.
  split. { apply fussy_lawful. reflexivity. } split. { apply fussy_quiet. now right. } split; [ apply fussy_same | ].
  split. { split; [ | now split ]. split; [ intros _; cbn; lia | ]. split; cbn; [ intros _ H; discriminate H | discriminate ]. }
  split. { split; [ | now split ]. split; [ intros _; cbn; lia | ]. split; cbn; [ intros _ H; discriminate H | discriminate ]. }
  split. { do 2 eexists. split; [ reflexivity | ]. split; [ reflexivity | ]. now split. }
  eexists. split; [ reflexivity | ]. split; reflexivity.
Qed.

(** The operator with two types. *)
Theorem C79_and : forall W (C : cls W) (S : sem C) (A : dcls W) (R : raw C -> obj A -> Prop)
  (D : cls W) (T : sem D) (B : dcls W) (R' : raw D -> obj B -> Prop) (I' : init D -> darg B -> Prop),
  lawful C S -> lawful D T -> quiet D T -> same D T B R' I' ->
  forall p d a x b y w, orel S R a x -> orel T R' b y ->
  agree (fun p o q => orel T R' (fst p) o /\ fst q = x /\ srel D T B R' (snd p) (snd q))
        (fun p q => fst q = x /\ srel D T B R' (snd p) (snd q))
    (a_and C D p d a (b, w)) (returned (exec (and_options A B (category_of p)) (x, (y, w)))).
Proof. exact @and_rel. Qed.
Print Assumptions C79_and.

(** and_then, map, map_or, map_or_else and option_cast. *)
Theorem C79_and_then : forall W (C : cls W) (S : sem C) (A : dcls W) (R : raw C -> obj A -> Prop) (I : init C -> darg A -> Prop)
  (D : cls W) (T : sem D) (B : dcls W) (R' : raw D -> obj B -> Prop),
  lawful C S -> same C S A R I -> lawful D T ->
  forall f g d c t w, same_option_function C A R D T B R' f g -> orel S R c t ->
  agree (made_option_rel C S A R D T B R') (not_made C S A R) (a_and_then C D f d (c, w)) (returned (exec (and_then A B g) (t, w))).
Proof. exact @and_then_rel. Qed.
Print Assumptions C79_and_then.

Theorem C79_map : forall W (C : cls W) (S : sem C) (A : dcls W) (R : raw C -> obj A -> Prop) (I : init C -> darg A -> Prop)
  (D : cls W) (T : sem D) (B : dcls W) (R' : raw D -> obj B -> Prop) (I' : init D -> darg B -> Prop),
  lawful C S -> same C S A R I -> lawful D T -> same D T B R' I' ->
  forall f g d c t w, same_function C A R D B R' f g -> orel S R c t ->
  agree (made_option_rel C S A R D T B R') (not_made C S A R) (a_map C D f d (c, w)) (returned (exec (map_member A B g) (t, w))).
Proof. exact @map_rel. Qed.
Print Assumptions C79_map.

Theorem C79_map_or : forall W (C : cls W) (S : sem C) (A : dcls W) (R : raw C -> obj A -> Prop) (I : init C -> darg A -> Prop)
  (D : cls W) (T : sem D) (B : dcls W) (R' : raw D -> obj B -> Prop) (I' : init D -> darg B -> Prop),
  lawful C S -> same C S A R I -> same D T B R' I' ->
  forall i j f g d c t w, I' i j -> same_function C A R D B R' f g -> orel S R c t ->
  agree (made_object_rel C S A R D B R') (not_made C S A R) (a_map_or C D i f d (c, w)) (returned (exec (map_or A B j g) (t, w))).
Proof. exact @map_or_rel. Qed.
Print Assumptions C79_map_or.

Theorem C79_map_or_else : forall W (C : cls W) (S : sem C) (A : dcls W) (R : raw C -> obj A -> Prop) (I : init C -> darg A -> Prop)
  (D : cls W) (B : dcls W) (R' : raw D -> obj B -> Prop),
  lawful C S -> same C S A R I ->
  forall h k f g d c t w,
  (forall d w, agree (fun p y w => R' (fst p) y /\ snd p = w) (fun p w => snd p = w) (h d w) (k w)) -> same_function C A R D B R' f g -> orel S R c t ->
  agree (made_object_rel C S A R D B R') (not_made C S A R) (a_map_or_else C D h f d (c, w)) (returned (exec (map_or_else A B k g) (t, w))).
Proof. exact @map_or_else_rel. Qed.
Print Assumptions C79_map_or_else.

Theorem C79_cast : forall W (C : cls W) (S : sem C) (A : dcls W) (R : raw C -> obj A -> Prop) (I : init C -> darg A -> Prop)
  (D : cls W) (T : sem D) (B : dcls W) (R' : raw D -> obj B -> Prop) (I' : init D -> darg B -> Prop),
  lawful C S -> same C S A R I -> lawful D T -> same D T B R' I' ->
  forall conv to d c t w,
  (forall r a w x, R r a -> agree (fun p y w => R' (fst p) y /\ snd p = w) (fun p w => snd p = w) (ctor D (conv r) x w) (to a w)) -> orel S R c t ->
  agree (made_option_rel C S A R D T B R') (not_made C S A R) (a_cast C D conv d (c, w)) (returned (exec (option_cast A B to) (t, w))).
Proof. exact @cast_rel. Qed.
Print Assumptions C79_cast.

(** Conversions of options of other types. *)
Theorem C79_conv_constructor : forall W (C : cls W) (S : sem C) (A : dcls W) (R : raw C -> obj A -> Prop) (I : init C -> darg A -> Prop)
  (D : cls W) (T : sem D) (B : dcls W) (R' : raw D -> obj B -> Prop) (I' : init D -> darg B -> Prop),
  lawful C S -> same C S A R I -> lawful D T -> same D T B R' I' ->
  forall k f g asg d c t w, same_function C A R D B R' f g -> quiet_function C S D f -> orel S R c t ->
  agree (fun p _ q => orel T R' (fst p) (fst q) /\ srel C S A R (snd p) (snd q)) (fun p q => srel C S A R (snd p) (snd q))
    (a_conv_ctor C D f d (c, w)) (exec (conv_constructor A B k g asg) (None, (t, w))).
Proof. exact @conv_constructor_rel. Qed.
Print Assumptions C79_conv_constructor.

Theorem C79_conv_assignment : forall W (C : cls W) (S : sem C) (A : dcls W) (R : raw C -> obj A -> Prop) (I : init C -> darg A -> Prop)
  (D : cls W) (T : sem D) (B : dcls W) (R' : raw D -> obj B -> Prop) (I' : init D -> darg B -> Prop),
  lawful C S -> same C S A R I -> lawful D T -> same D T B R' I' ->
  forall k f g fa ga d y c t w, same_function C A R D B R' f g -> quiet_function C S D f -> same_assignment C A R D B R' fa ga ->
  orel T R' d y -> orel S R c t ->
  agree (fun p _ q => orel T R' (fst p) (fst q) /\ srel C S A R (snd p) (snd q)) (fun p q => orel T R' (fst p) (fst q) /\ srel C S A R (snd p) (snd q))
    (a_conv_assign C D f fa d (c, w)) (exec (conv_assignment A B k g ga) (y, (t, w))).
Proof. exact @conv_assignment_rel. Qed.
Print Assumptions C79_conv_assignment.

(** A case with two types: map to the double of the number. *)
Definition P1 : cls unit := plain 1.
Definition twice (d : raw P1) (s : raw P1 * unit) : out (raw P1 * (raw P1 * unit)) := Ret (2 * fst s, s).
Definition twice_doc (s : obj plain_doc * unit) : step (obj plain_doc * unit) (obj plain_doc) := Got (2 * fst s) s.
Example C79_two_ex :
  lawful P1 (plain_sem 1) /\ quiet P1 (plain_sem 1) /\ same P1 (plain_sem 1) plain_doc (plain_is 1) (plain_arg 1) /\
  same_function P1 plain_doc (plain_is 1) P1 plain_doc (plain_is 1) twice twice_doc /\
  quiet_function P1 (plain_sem 1) P1 twice /\
  orel (A := plain_doc) (plain_sem 1) (plain_is 1) (mkcell (C := P1) 4 0 true) (Some 4) /\
  a_map P1 P1 twice (mkcell (C := P1) 9 0 false) (mkcell (C := P1) 4 0 true, tt) =
    Ret (mkcell (C := P1) 8 0 true, (mkcell (C := P1) 4 0 true, tt)) /\
  returned (exec (map_member plain_doc plain_doc twice_doc) (Some 4, tt)) = Got (Some 8) (Some 4, tt).
Proof.
  split; [ apply plain_lawful | ]. split; [ apply steady_quiet; apply plain_steady | ]. split; [ apply plain_same | ].
  split. { intros x r a w [-> H]. split; [ split; [ reflexivity | intros K; specialize (H K); cbn in a; change (a <> 0) in H; change (2 * a <> 0); lia ] | ]. split; [ | reflexivity ]. now split. }
  split. { intros d r w d' q _ _ _ E. discriminate E. }
  split. { split; [ | split; [ reflexivity | now split ] ]. split; [ intros _ _; discriminate | ]. split; cbn; [ intros _ H; discriminate H | discriminate ]. }
  split; reflexivity.
Qed.

(** An option is a class again, so all of this holds for options of options, to any depth if the constructors of the
    innermost class do not throw. *)
Theorem C79_option : forall W (C : cls W) (S : sem C) (A : dcls W) (R : raw C -> obj A -> Prop) (I : init C -> darg A -> Prop),
  lawful C S -> quiet C S -> same C S A R I -> same (opt_cls C) (opt_sem C S) (doc_option A) (orel S R) (oirel I).
Proof. exact @option_same. Qed.
Print Assumptions C79_option.
Theorem C79_nested : forall W (C : cls W) (S : sem C) (A : dcls W) (R : raw C -> obj A -> Prop) (I : init C -> darg A -> Prop),
  lawful C S -> steady C S -> same C S A R I ->
  forall n, lawful (nest_cls n C) (nest_sem n C S) /\ quiet (nest_cls n C) (nest_sem n C S) /\
    same (nest_cls n C) (nest_sem n C S) (doc_nest n A) (nrel S R n) (nirel I n).
Proof. exact @nest_all. Qed.
Print Assumptions C79_nested.
Example C79_nested_ex : lawful P1 (plain_sem 1) /\ steady P1 (plain_sem 1) /\
  same P1 (plain_sem 1) plain_doc (plain_is 1) (plain_arg 1) /\
  nrel (A := plain_doc) (plain_sem 1) (plain_is 1) 2
    (mkcell (C := opt_cls P1) (mkcell (C := P1) 4 1 true) 1 true) (Some (Some 4)).
Proof.
  split; [ apply plain_lawful | ]. split; [ apply plain_steady | ]. split; [ apply plain_same | ].
  assert (H : orel (A := plain_doc) (plain_sem 1) (plain_is 1) (mkcell (C := P1) 4 1 true) (Some 4)).
  { split; [ | split; [ reflexivity | now split ] ]. split; [ intros _ _; discriminate | ]. split; cbn; [ intros _ K; discriminate K | discriminate ]. }
  split; [ | split; [ reflexivity | exact H ] ]. split; [ intros _; apply H | ]. split; [ intros K; vm_compute in K; discriminate K | reflexivity ].
Qed.

(** Every program: the calls throw in the same places, and in the end the variables hold the same and the same calls
    have been made. *)
Theorem C79_programs : forall W (C : cls W) (S : sem C) (A : dcls W) (R : raw C -> obj A -> Prop) (I : init C -> darg A -> Prop),
  lawful C S -> quiet C S -> same C S A R I ->
  forall os ps, Forall2 (same_op I) os ps -> forall s t, related (orel S R) s t ->
  fst (run_all (model_step C) os s) = fst (run_all (doc_step A) ps t) /\
  after_same (related (orel S R)) (snd (run_all (model_step C) os s)) (snd (run_all (doc_step A) ps t)).
Proof. exact @programs_same. Qed.
Print Assumptions C79_programs.
(** ... where what is compared is whether each call threw, up to the first that ended the program. *)
Theorem C79_recorded : forall W X O (step : O -> list X * W -> after (list X * W)) p s,
  (forall o t s', step o s = Next t s' ->
     run_all step (o :: p) s = (t :: fst (run_all step p s'), snd (run_all step p s'))) /\
  (forall o, step o s = Ended -> run_all step (o :: p) s = ([], Ended)) /\
  (forall o, step o s = Broken -> run_all step (o :: p) s = ([], Broken)) /\
  run_all step [] s = ([], Next false s).
Proof. exact run_all_records. Qed.
Print Assumptions C79_recorded.
Definition C79_program : list (op N) := [Value 0 5; Copy 1 0; Swap 1 2; Emplace 0 9; OrMove 1 2; TryEmplace 0 6].
Definition empty3 : cell T3 := mkcell (C := T3) 0 0 false.
Definition C79_start : schedule := [false; false; false; true; false; false].
Example C79_programs_ex :
  Forall2 (same_op (fussy_arg 3 false)) C79_program C79_program /\
  related (orel (A := fussy_doc) S3 (fussy_is 3 false)) ([empty3; empty3; empty3], C79_start) ([None; None; None], C79_start) /\
  run_all (doc_step fussy_doc) C79_program ([None; None; None], C79_start) =
    ([false; false; false; true; false; false], Next false ([Some 6; Some 5; Some 0], [])) /\
  fst (run_all (model_step T3) C79_program ([empty3; empty3; empty3], C79_start)) = [false; false; false; true; false; false].
Proof.
  split. { repeat constructor. }
  split. { split; [ | reflexivity ]. repeat constructor; cbn; try reflexivity; try discriminate. }
  split; reflexivity.
Qed.

(** A constructor that writes before it throws: the hypothesis [quiet] is needed. *)
Theorem C79_quiet_needed_refuted : exists (c c' : cell (fussy 3 true)) o w w' w'',
  orel (A := fussy_doc) (fussy_sem 3 true) (fussy_is 3 true) c o /\
  o_emplace _ (o_reset _) (ctor (fussy 3 true) 5) c w = Exn (c', w') /\
  exec (emplace fussy_doc 5) (o, w) = Thrown (None, w'') /\
  o_has _ c' = Ok true /\ ~ orel (A := fussy_doc) (fussy_sem 3 true) (fussy_is 3 true) c' None.
Proof. exact torn_emplace. Qed.
Print Assumptions C79_quiet_needed_refuted.
