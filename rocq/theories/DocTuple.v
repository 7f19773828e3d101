(** std::tuple as its users see it, and the code equivalents of zip and zip_with.

    Models: docs/reference.md 1118-1124 (zip), 1153-1159 (zip_with).

    [tail_first]: the standard leaves the order in which std::tuple makes its elements to the implementation.  When
    an element throws, those already made are destroyed. *)
From Coq Require Import List Bool String.
From Verif Require Import DocLang DocSnippets DocAccess.
Import ListNotations.
Open Scope string_scope.

(** A destructor must not throw. *)
Definition must {S A} (m : step S A) : step S A := match m with Thrown _ => Stopped | _ => m end.

(** Two objects, one after the other; the first is destroyed if the second throws. *)
Definition after_first {S X Y Z} (f : S -> step S X) (undo : X -> S -> step S unit) (g : S -> step S Y) (pair : X -> Y -> Z) (s : S) : step S Z :=
  then_ (f s) (fun x s =>
    match g s with
    | Got y s => Got (pair x y) s
    | Thrown s => then_ (must (undo x s)) (fun _ s => Thrown s) id
    | Stopped => Stopped
    | Wrong => Wrong
    end) id.
Definition both {S X Y} (tail_first : bool) (f : S -> step S X) (dx : X -> S -> step S unit) (g : S -> step S Y) (dy : Y -> S -> step S unit)
  : S -> step S (X * Y) :=
  if tail_first then after_first g dy f (fun y x => (x, y)) else after_first f dx g pair.
Definition one_by_one {S} (f g : S -> step S unit) (s : S) : step S unit := then_ (f s) (fun _ s => g s) id.

(** The head or the tail together with the world; of two tuples. *)
Definition head {X Y W} : part ((X * Y) * W) (X * W) :=
  {| look := fun s => (fst (fst s), snd s); put := fun p s => ((fst p, snd (fst s)), snd p) |}.
Definition tail {X Y W} : part ((X * Y) * W) (Y * W) :=
  {| look := fun s => (snd (fst s), snd s); put := fun p s => ((fst (fst s), fst p), snd p) |}.
Definition heads {X Y W} : part ((X * Y) * ((X * Y) * W)) (X * (X * W)) :=
  {| look := fun s => (fst (fst s), look head (snd s)); put := fun p s => ((fst p, snd (fst s)), put head (snd p) (snd s)) |}.
Definition tails {X Y W} : part ((X * Y) * ((X * Y) * W)) (Y * (Y * W)) :=
  {| look := fun s => (snd (fst s), look tail (snd s)); put := fun p s => ((fst (fst s), fst p), put tail (snd p) (snd s)) |}.

Section Cons.
Context {W : Type} (tail_first : bool) (A B : dcls W).
Definition doc_cons : dcls W := {|
  obj := obj A * obj B;
  darg := darg A * darg B;
  d_make := fun i => both tail_first (d_make A (fst i)) (d_destroy A) (d_make B (snd i)) (d_destroy B);
  d_copy := fun x => both tail_first (d_copy A (fst x)) (d_destroy A) (d_copy B (snd x)) (d_destroy B);
  d_move := both tail_first (on head (d_move A)) (fun x => on (there whole) (d_destroy A x))
                            (on tail (d_move B)) (fun y => on (there whole) (d_destroy B y));
  d_assign := fun i => one_by_one (on head (d_assign A (fst i))) (on tail (d_assign B (snd i)));
  d_cassign := fun x => one_by_one (on head (d_cassign A (fst x))) (on tail (d_cassign B (snd x)));
  d_massign := one_by_one (on heads (d_massign A)) (on tails (d_massign B));
  d_swap := one_by_one (on heads (d_swap A)) (on tails (d_swap B));
  d_destroy := fun x =>
    if tail_first then one_by_one (fun w => must (d_destroy A (fst x) w)) (fun w => must (d_destroy B (snd x) w))
    else one_by_one (fun w => must (d_destroy B (snd x) w)) (fun w => must (d_destroy A (fst x) w))
|}.
End Cons.

Definition doc_unit {W} : dcls W := {|
  obj := unit; darg := unit;
  d_make := fun _ w => Got tt w;
  d_copy := fun _ w => Got tt w;
  d_move := fun s => Got tt s;
  d_assign := fun _ s => Got tt s;
  d_cassign := fun _ s => Got tt s;
  d_massign := fun s => Got tt s;
  d_swap := fun s => Got tt s;
  d_destroy := fun _ w => Got tt w
|}.
Fixpoint doc_tuple {W} (tail_first : bool) (As : list (dcls W)) : dcls W :=
  match As with
  | [] => doc_unit
  | A :: As => doc_cons tail_first A (doc_tuple tail_first As)
  end.

Section Zip.
Context {W : Type}.

(** Options of several types, and objects of several types. *)
Fixpoint options (As : list (dcls W)) : Type :=
  match As with
  | [] => unit
  | A :: As => (option (obj A) * options As)%type
  end.
Fixpoint objects (As : list (dcls W)) : Type :=
  match As with
  | [] => unit
  | A :: As => (obj A * objects As)%type
  end.
Fixpoint gets (As : list (dcls W)) : options As -> option (objects As) :=
  match As return options As -> option (objects As) with
  | [] => fun _ => Some tt
  | A :: As => fun os =>
      match fst os, gets As (snd os) with
      | Some x, Some xs => Some (x, xs)
      | _, _ => None
      end
  end.
Fixpoint puts (As : list (dcls W)) : objects As -> options As :=
  match As return objects As -> options As with
  | [] => fun _ => tt
  | A :: As => fun xs => (Some (fst xs), puts As (snd xs))
  end.

Definition all_have (As : list (dcls W)) : expr (options As * W) bool :=
  E "(options.has_value() && ...)" (fun s => Got (match gets As (fst s) with Some _ => true | None => false end) s).

(** A function of options.get()... *)
Definition on_gets (As : list (dcls W)) {R} (g : objects As * W -> step (objects As * W) R) (s : options As * W)
  : step (options As * W) R :=
  match gets As (fst s) with
  | None => Stopped
  | Some xs =>
      match g (xs, snd s) with
      | Got r (xs, w) => Got r (puts As xs, w)
      | Thrown (xs, w) => Thrown (puts As xs, w)
      | Stopped => Stopped
      | Wrong => Wrong
      end
  end.

(** return e; with e of type T in a function that returns option<T>: the option is made from the temporary object. *)
Definition as_result {S} (B : dcls W) (e : expr (S * W) (obj B)) : expr (S * W) (option (obj B)) :=
  E (etext e) (fun s => then_ (eval e s) (fun y s =>
    match d_move B (y, snd s) with
    | Got z (y, w) => then_ (must (d_destroy B y w)) (fun _ w => Got (Some z) (fst s, w)) (fun w => (fst s, w))
    | Thrown (y, w) => then_ (must (d_destroy B y w)) (fun _ w => Thrown (fst s, w)) (fun w => (fst s, w))
    | Stopped => Stopped
    | Wrong => Wrong
    end) id).

(** 1153 *)
Definition zip_with (As : list (dcls W)) (B : dcls W) (g : objects As * W -> step (objects As * W) (obj B))
  : stmt (options As * W) (option (obj B)) :=
  if_else (all_have As) (return_ (as_result B (E "fn(options.get()...)" (on_gets As g)))) (return_ none).

(** 1118: each element is made from an lvalue or an rvalue. *)
Definition from_reference (A : dcls W) (c : category) : obj A * W -> step (obj A * W) (obj A) :=
  match c with Lvalue => copying A | Rvalue => d_move A end.
Fixpoint make_tuple (tail_first : bool) (As : list (dcls W)) (cs : list category)
  : objects As * W -> step (objects As * W) (obj (doc_tuple tail_first As)) :=
  match As return objects As * W -> step (objects As * W) (obj (doc_tuple tail_first As)) with
  | [] => fun s => Got tt s
  | A :: As => both tail_first
      (on head (from_reference A (hd Lvalue cs))) (fun x => on (there DocLang.whole) (d_destroy A x))
      (on tail (make_tuple tail_first As (tl cs))) (fun y => on (there DocLang.whole) (d_destroy (doc_tuple tail_first As) y))
  end.
Definition zip (tail_first : bool) (As : list (dcls W)) (cs : list category) : stmt (options As * W) (option (obj (doc_tuple tail_first As))) :=
  if_else (all_have As) (return_ (as_result (doc_tuple tail_first As) (E "std::tuple{options.get()...}" (on_gets As (make_tuple tail_first As cs)))))
    (return_ none).
End Zip.
