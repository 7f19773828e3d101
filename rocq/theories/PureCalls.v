(** OPTION_PURE (97-103): the functions that carry it, what they call, and what a compiler makes of the
    attribute: a call whose result is not used may go, a second call may take the result of the first if
    nothing was written in between (GCC's manual, common function attributes, pure).

    Memory is any type.  A hook is code that the functions call and that is not theirs: the level function
    of a trait, the members of a container. *)
From Coq Require Import List Bool Arith.
Import ListNotations.

Section Memory.
Context {M : Type}.

Record hooks : Type := {
  (* base::has_value() of option o: its flag (1938), or get_level of its trait (1986, 2041, 2099) *)
  level : nat -> M -> M * bool;
  (* where its value is: base::value, or what it points to (3063, 3061-3065) *)
  content : nat -> M -> nat;
  (* whether variant o holds alternative i, and where (std::get_if, 3485) *)
  alternative : nat -> nat -> M -> option nat;
  (* container o: size(), operator[], front(), back() *)
  size : nat -> M -> M * nat;
  index : nat -> nat -> M -> M * nat;
  front : nat -> M -> M * nat;
  back : nat -> M -> M * nat
}.

Inductive answer : Type :=
| Bool (b : bool)
| Address (a : nat)
| Null.

Inductive side : Type := Left | Right.
Inductive relation : Type := Eq | Ne | Lt | Le | Gt | Ge.

(** The functions with OPTION_PURE. *)
Inductive func : Type :=
| HasValue | ToBool                            (* 3018, 3022 *)
| Get | Star | Arrow | Unchecked | PtrOrNull   (* 3060-3087, 3106-3121, 3096-3101, 3126-3150, 3213-3216 *)
| VariantGet (i : nat)                         (* 3498-3513 *)
| Io                                           (* 3559-3572: where the option is *)
| At (i : nat) | AtFront | AtBack              (* 3577, 3585, 3594 *)
| None_ (r : relation) (s : side).             (* 3788-3832; s: the side of none *)

(** Whether OPTION_VERIFY evaluates its condition (190-232). *)
Variable checks : bool.
Variable h : hooks.

(** None: a check fails. *)
Definition verified (o : nat) (m : M) : option M :=
  if checks then let (m', b) := level h o m in if b then Some m' else None
  else Some m.

Definition get_ (o : nat) (m : M) : option (M * answer) :=
  match verified o m with Some m' => Some (m', Address (content h o m')) | None => None end.

Definition star_ (o : nat) (m : M) : option (M * answer) :=
  match verified o m with Some m' => get_ o m' | None => None end.

(** The result of has_value() decides, or nothing does. *)
Definition none_ (r : relation) (s : side) : option bool + bool :=
  match r, s with
  | Eq, _ | Le, Right | Ge, Left => inl (Some false)
  | Ne, _ | Lt, Left | Gt, Right => inl (Some true)
  | Lt, Right | Gt, Left => inr false
  | Le, Left | Ge, Right => inr true
  end.

Definition ask (f : func) (o : nat) (m : M) : option (M * answer) :=
  match f with
  | HasValue | ToBool => let (m', b) := level h o m in Some (m', Bool b)
  | Get => get_ o m
  | Star | Arrow => star_ o m
  | Unchecked => Some (m, Address (content h o m))
  | PtrOrNull => let (m', b) := level h o m in if b then get_ o m' else Some (m', Null)
  | VariantGet i => Some (m, match alternative h o i m with Some a => Address a | None => Null end)
  | Io => Some (m, Address o)
  | At i =>
      let (m', n) := size h o m in
      if n <=? i then Some (m', Null)
      else let (m2, a) := index h o i m' in Some (m2, Address a)
  | AtFront =>
      let (m', n) := size h o m in
      if n =? 0 then Some (m', Null) else let (m2, a) := front h o m' in Some (m2, Address a)
  | AtBack =>
      let (m', n) := size h o m in
      if n =? 0 then Some (m', Null) else let (m2, a) := back h o m' in Some (m2, Address a)
  | None_ r s =>
      match none_ r s with
      | inl (Some true) => let (m', b) := level h o m in Some (m', Bool b)
      | inl _ => let (m', b) := level h o m in Some (m', Bool (negb b))
      | inr b => Some (m, Bool b)
      end
  end.

(** Programs: calls of these functions, any other code (Change: it sees some registers, and may fail),
    output, branches and loops. *)
Inductive stmt : Type :=
| Ask (x : nat) (f : func) (o : nat)
| Copy (y x : nat)
| Change (xs : list nat) (g : list answer -> M -> option M)
| Emit (x : nat)
| If (x : nat) (a b : list stmt)
| Loop (x : nat) (a : list stmt).

Record state : Type := { regs : nat -> answer; mem : M; out : list answer }.

Definition set (x : nat) (a : answer) (r : nat -> answer) : nat -> answer :=
  fun y => if y =? x then a else r y.

Definition truth (a : answer) : bool := match a with Bool b => b | Address _ => true | Null => false end.

(** Failed: a check of the library or the other code stopped the program. *)
Inductive result : Type := Finished (s : state) | Failed.

Inductive exec : list stmt -> state -> result -> Prop :=
| E_nil s : exec [] s (Finished s)
| E_ask x f o p s m a r :
    ask f o (mem s) = Some (m, a) ->
    exec p {| regs := set x a (regs s); mem := m; out := out s |} r -> exec (Ask x f o :: p) s r
| E_ask_fail x f o p s : ask f o (mem s) = None -> exec (Ask x f o :: p) s Failed
| E_copy y x p s r :
    exec p {| regs := set y (regs s x) (regs s); mem := mem s; out := out s |} r -> exec (Copy y x :: p) s r
| E_change xs g p s m r :
    g (map (regs s) xs) (mem s) = Some m ->
    exec p {| regs := regs s; mem := m; out := out s |} r -> exec (Change xs g :: p) s r
| E_change_fail xs g p s : g (map (regs s) xs) (mem s) = None -> exec (Change xs g :: p) s Failed
| E_emit x p s r :
    exec p {| regs := regs s; mem := mem s; out := out s ++ [regs s x] |} r -> exec (Emit x :: p) s r
| E_if x a b p s s' r :
    exec (if truth (regs s x) then a else b) s (Finished s') -> exec p s' r -> exec (If x a b :: p) s r
| E_if_fail x a b p s :
    exec (if truth (regs s x) then a else b) s Failed -> exec (If x a b :: p) s Failed
| E_loop_end x a p s r : truth (regs s x) = false -> exec p s r -> exec (Loop x a :: p) s r
| E_loop x a p s s' r :
    truth (regs s x) = true -> exec a s (Finished s') -> exec (Loop x a :: p) s' r -> exec (Loop x a :: p) s r
| E_loop_fail x a p s :
    truth (regs s x) = true -> exec a s Failed -> exec (Loop x a :: p) s Failed.

(** What the compiler may do: known facts "register x holds the answer of f on o", registers D that are
    never used. *)
Definition fact : Type := nat * func * nat.

Definition kill (x : nat) (l : list fact) : list fact := filter (fun t => negb (fst (fst t) =? x)) l.

Inductive better (D : nat -> bool) : list fact -> list stmt -> list stmt -> Prop :=
| B_nil A : better D A [] []
| B_keep A x f o p q :
    better D ((x, f, o) :: kill x A) p q -> better D A (Ask x f o :: p) (Ask x f o :: q)
| B_drop A x f o p q : D x = true -> better D (kill x A) p q -> better D A (Ask x f o :: p) q
| B_reuse A x y f o p q :
    In (x, f, o) A -> D x = false -> better D (kill y A) p q -> better D A (Ask y f o :: p) (Copy y x :: q)
| B_copy A y x p q :
    D x = false \/ D y = true -> better D (kill y A) p q -> better D A (Copy y x :: p) (Copy y x :: q)
| B_change A xs g p q :
    (forall x, In x xs -> D x = false) -> better D [] p q -> better D A (Change xs g :: p) (Change xs g :: q)
| B_emit A x p q : D x = false -> better D A p q -> better D A (Emit x :: p) (Emit x :: q)
| B_if A x a a' b b' p q :
    D x = false -> better D A a a' -> better D A b b' -> better D [] p q ->
    better D A (If x a b :: p) (If x a' b' :: q)
| B_loop A x a a' p q :
    D x = false -> better D [] a a' -> better D [] p q -> better D A (Loop x a :: p) (Loop x a' :: q).

End Memory.
Arguments hooks : clear implicits.
Arguments stmt : clear implicits.
Arguments state : clear implicits.
Arguments result : clear implicits.
