(** The transcribed code equivalents are printed as in the documentation. *)
From Coq Require Import List String.
From Verif Require Import DocLang DocSnippets DocSource.

Lemma text_members : forall W (A : dcls W),
  lines (copy_constructor A) = doc_55 /\ lines (move_constructor A) = doc_77 /\
  lines (copy_assignment A) = doc_247 /\ lines (move_assignment A) = doc_280 /\
  (forall i, lines (value_assignment A i) = doc_313) /\ (forall i, lines (emplace A i) = doc_434) /\
  (forall i, lines (try_emplace A i) = doc_453) /\ (forall p, lines (has_value_and A p) = doc_490) /\
  (forall e, lines (take A e) = doc_522) /\ (forall e p, lines (take_if A e p) = doc_557) /\
  (forall f, lines (inspect A f) = doc_601) /\ (forall c p, lines (filter_member A c p) = doc_852) /\
  (forall c f, lines (or_else A c f) = doc_979) /\ lines (swap_member A) = doc_1019 /\
  (forall l r, lines (or_options A l r) = doc_1729) /\ (forall c, lines (or_assign A c) = doc_1771) /\
  (forall i, lines (or_assign_value A i) = doc_1771) /\ (forall l r, lines (xor_options A l r) = doc_1834).
Proof. intros W A. repeat (split; [ try reflexivity; intros [ | ]; reflexivity | ]). reflexivity. Qed.

Lemma text_two : forall W (A B : dcls W),
  (forall f g, lines (conv_constructor A B Lvalue f g) = doc_169) /\ (forall f g, lines (conv_constructor A B Rvalue f g) = doc_196) /\
  (forall f g, lines (conv_assignment A B Lvalue f g) = doc_344) /\ (forall f g, lines (conv_assignment A B Rvalue f g) = doc_382) /\
  (forall i f, lines (map_or A B i f) = doc_755) /\ (forall g f, lines (map_or_else A B g f) = doc_790) /\
  (forall f, lines (and_then A B f) = doc_900) /\ (forall f, lines (map_member A B f) = doc_943) /\
  (forall f, lines (option_cast A B f) = doc_1191) /\ (forall r, lines (and_options A B r) = doc_1792).
Proof. intros W A B. repeat split. Qed.
