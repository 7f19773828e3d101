(** The other code equivalents of docs/reference.md, transcribed: value_or, value_or_construct, the free functions on
    containers, variants and pointers, get, flatten, swap and hash.

    Models: docs/reference.md 706-708, 732-734 (value_or, value_or_construct), 1218-1224 (from_nullable), 1284-1286 (swap),
    1307-1312, 1331-1336 (get of an option of a tuple), 1356-1362, 1382-1388 (get of a variant), 1476-1481, 1515-1520,
    1544-1549 (at, at_front, at_back), 1579-1584 (flatten), 1676-1682, 1685-1691 (lookup), 2131-2136 (hash).

    A reference into a container, tuple or variant is the position it refers to; a pointer is null or the place it points to.
    As in DocLang.v the meaning knows nothing of storage and levels. *)
From Coq Require Import NArith List Bool String.
From Verif Require Import DocLang DocSnippets.
Import ListNotations.
Open Scope string_scope.

Definition none {S X} : expr S (option X) := constant "opt::none" None.

(** c ? a : b *)
Definition cond {S A} (c : expr S bool) (a b : expr S A) : expr S A :=
  E (etext c ++ " ? " ++ etext a ++ " : " ++ etext b) (fun s => then_ (eval c s) (fun x s => if x then eval a s else eval b s) id).

(** * Members *)
Section Members.
Context {W : Type} (A : dcls W).
Notation X := (obj A).

(** 706, 732 *)
Definition value_or (c : category) (i : darg A) : stmt (option X * W) X :=
  return_ (cond (has_value A this) (made A (get_as A c)) (made A (from_arg A world1 "T(std::forward<U>(def))" i))).
Definition value_or_construct (c : category) (i : darg A) : stmt (option X * W) X :=
  return_ (cond (has_value A this) (made A (get_as A c)) (made A (from_arg A world1 "T(std::forward<Args>(args)...)" i))).

(** 1284 *)
Definition swap_function : stmt (option X * (option X * W)) unit :=
  do_ (E "left.swap(right)" (fun s => then_ (exec (swap_member A) s) (fun _ s => Got tt s) id)).

(** 1307, 1331: the element is at position i of the tuple; the state is the option alone. *)
Definition x_ : var (option X) X := Var "x." whole.
Definition element (t : string) (i : nat) : expr (option X) (option nat) :=
  E t (fun s => match s with Some _ => Got (Some i) s | None => Stopped end).
Definition get_index (i : nat) : stmt (option X) (option nat) :=
  seq (if_ (has_value A x_) (return_ (element "get<I>(x.get())" i))) (return_ none).
Definition get_type (i : nat) : stmt (option X) (option nat) :=
  seq (if_ (has_value A x_) (return_ (element "get<T>(x.get())" i))) (return_ none).

(** 1579: the option in an option, given as a reference to its object or as none. *)
Definition opt_ : var (option (option X)) (option X) := Var "opt." whole.
Definition flatten2 : stmt (option (option X)) (option X) :=
  seq (if_ (has_value (doc_option A) opt_)
        (return_ (E "opt.get()" (fun s => match s with Some o => Got o s | None => Stopped end))))
      (return_ none).

(** 2131 *)
Definition value_ : var (option X) X := Var "value." whole.
Definition hash_function (h : X -> step unit N) (disengaged : N) : stmt (option X) N :=
  seq (if_ (has_value A value_)
        (return_ (E "std::hash<T>{}(value.get())" (fun s =>
          match s with
          | Some x => match h x with Got n _ => Got n s | Thrown _ => Thrown s | Stopped => Stopped | Wrong => Wrong end
          | None => Stopped
          end))))
      (return_ (constant "{disengaged_hash}" disengaged)).
End Members.

(** * Containers: the state is the container *)
Section Sequences.
Context {X : Type}.
Notation state := (list X).

Definition size (c : list X) : N := N.of_nat (List.length c).
Definition is_empty : expr state bool := E "container.size() == 0" (fun c => Got (size c =? 0)%N c).

(** 1476, 1515, 1544 *)
Definition at_index (i : N) : stmt state (option N) :=
  seq (if_ (E "index >= container.size()" (fun c => Got (size c <=? i)%N c)) (return_ none))
      (return_ (E "container[index]" (fun c => match nth_error c (N.to_nat i) with Some _ => Got (Some i) c | None => Wrong end))).
Definition at_front : stmt state (option N) :=
  seq (if_ is_empty (return_ none))
      (return_ (E "container.front()" (fun c => match c with _ :: _ => Got (Some 0%N) c | [] => Wrong end))).
Definition at_back : stmt state (option N) :=
  seq (if_ is_empty (return_ none))
      (return_ (E "container.back()" (fun c => match c with _ :: r => Got (Some (size r)) c | [] => Wrong end))).

(** 1676, 1685: the container and the local variable [it], a position; the past-the-end position is end(). *)
Context {K : Type} (find : list X -> K -> N).
Definition declare_it (k : K) : expr (state * N) unit :=
  E "auto it = associative_container.find(key)" (fun s => Got tt (fst s, find (fst s) k)).
Definition at_end : expr (state * N) bool :=
  E "it == associative_container.end()" (fun s => Got (snd s =? size (fst s))%N s).
Definition through_it (t : string) : expr (state * N) (option N) :=
  E t (fun s => match nth_error (fst s) (N.to_nat (snd s)) with Some _ => Got (Some (snd s)) s | None => Wrong end).
Definition lookup_map (k : K) : stmt (state * N) (option N) :=
  seq (do_ (declare_it k)) (seq (if_ at_end (return_ none)) (return_ (through_it "it->second"))).
Definition lookup_set (k : K) : stmt (state * N) (option N) :=
  seq (do_ (declare_it k)) (seq (if_ at_end (return_ none)) (return_ (through_it "*it"))).
End Sequences.

(** * Pointers and variants *)

(** The object that a pointer points to; a null pointer must not be dereferenced. *)
Definition pointee {S A} (t : string) (p : S -> option A) : expr S (option A) :=
  E t (fun s => match p s with Some a => Got (Some a) s | None => Wrong end).
Definition is_null {S A} (t : string) (p : S -> option A) : expr S bool :=
  E (t ++ " == nullptr") (fun s => Got (match p s with Some _ => false | None => true end) s).

(** 1218: the state is the pointer. *)
Definition from_nullable : stmt (option N) (option N) :=
  if_else (is_null "nullable_ptr" id) (return_ none) (return_ (pointee "*nullable_ptr" id)).

(** 1356, 1382: a variant (the position of its active alternative; none if it is valueless) and the local variable [ptr].
    The alternative that is asked for is at position i. *)
Definition declare_ptr (t : string) (i : nat) : expr (option nat * option nat) unit :=
  E t (fun s => Got tt (fst s, match fst s with Some j => if Nat.eqb i j then Some i else None | None => None end)).
Definition variant_function (t : string) (i : nat) : stmt (option nat * option nat) (option nat) :=
  seq (do_ (declare_ptr t i)) (seq (if_ (is_null "ptr" snd) (return_ none)) (return_ (pointee "*ptr" snd))).
Definition variant_index (i : nat) := variant_function "auto ptr = std::get_if<I>(v)" i.
Definition variant_type (i : nat) := variant_function "auto ptr = std::get_if<T>(v)" i.
