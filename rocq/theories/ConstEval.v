(** Options in constant expressions.

    Models: include/opt/option.hpp 648-668 (construct_at), 1898-2110 (the four storages, with the union
    whose active member decides what a constant expression may touch), 2112-2135 (copies and moves), 2828-3125
    (members of option), 3253-3271 (swap), as the rules of constant evaluation see them: None is "not a
    constant expression".  
    An object of type T is a value; its own constructors and assignments are usable in constant
    expressions.  A destroyed option is forgotten; the compiler's rules about leaks do not matter here. *)
From Coq Require Import ZArith NArith List Bool Arith.
From Verif Require Import Types History.
Import ListNotations.

Section ConstEval.
Context {V : Type}.

(** option_traits<T>: whether get_level and set_level can be evaluated, whether set_level creates the object
    with std::construct_at (none of the library's does: they assign, 1556, 1784, 3946), which values have
    level 0, and the value that set_level(_, 0) writes. *)
Record traits : Type := mktraits { usable : bool; builds : bool; vacant : V -> bool; vacancy : V }.

Record literal : Type := mkliteral {
  l_td : bool;             (* trivially destructible *)
  l_tcc : bool; l_tca : bool; l_tmc : bool; l_tma : bool;
  l_scalar : bool;
  l_swap : bool;           (* swap(a, b) is usable before C++20 *)
  l_left : V -> V;         (* what a move leaves behind *)
  l_traits : option traits (* None: max_level is 0, a flag is stored *)
}.

(** OPTION_VERIFY (190-233): evaluated (a debug build; GCC before 13), an assumption that is looked at if it can be evaluated, or
    nothing. *)
Inductive vmode : Type := Checked | Assumed | Ignored.
Definition check (m : vmode) (b : option bool) : bool :=
  match m, b with
  | Checked, Some b => b | Checked, None => false
  | Assumed, Some b => b | Assumed, None => true
  | Ignored, _ => true
  end.

(** The active member of the union. *)
Inductive member : Type := Dummy | Value (v : V) | Gone.
Record opt : Type := mkopt { o_mem : member; o_flag : bool }.

Section Type_.
Context (cxx20 : bool) (vm : vmode) (T : literal).

Definition active (c : opt) : option V := match o_mem c with Value v => Some v | _ => None end.

(** get_level reads the object; set_level assigns to it through a pointer, which does not make it the
    active member, or creates it.  The verification after every call of set_level is included. *)
Definition get0 (t : traits) (m : member) : option bool :=
  match m with Value v => if usable t then Some (vacant t v) else None | _ => None end.
Definition set0 (t : traits) (m : member) : option member :=
  if usable t && check vm (Some (vacant t (vacancy t))) then
    match m with
    | Value _ => Some (Value (vacancy t))
    | _ => if cxx20 && builds t then Some (Value (vacancy t)) else None
    end
  else None.

Definition has (c : opt) : option bool :=
  match l_traits T with
  | None => Some (o_flag c)
  | Some t => option_map negb (get0 t (o_mem c))
  end.

(** 1911, 1956, 2010, 2061 *)
Definition empty : option opt :=
  match l_traits T with
  | None => Some (mkopt Dummy false)
  | Some t => option_map (fun m => mkopt m false) (set0 t Dummy)
  end.
(** OPTION_VERIFY(has_value()) *)
Definition verified (c : opt) : option opt := if check vm (has c) then Some c else None.
(** 1914-1922 and copies *)
Definition in_place (v : V) : option opt := verified (mkopt (Value v) true).

(** C++20: std::construct_at makes the member active.  Before, an assignment through the pointer, or
    placement new. *)
Definition construct_at (v : V) (m : member) : option member :=
  if cxx20 then Some (Value v)
  else if l_tma T then match m with Value _ => Some (Value v) | _ => None end
  else None.
Definition construct (v : V) (c : opt) : option opt :=
  match construct_at v (o_mem c) with
  | Some m => verified (mkopt m true)
  | None => None
  end.

(** 1937, 1981, 2037, 2091 *)
Definition reset (c : opt) : option opt :=
  match l_traits T with
  | None =>
      if l_td T then Some (mkopt (o_mem c) false)
      else if o_flag c then match active c with Some _ => Some (mkopt Gone false) | None => None end
      else Some c
  | Some t =>
      if l_td T then option_map (fun m => mkopt m false) (set0 t (o_mem c))
      else match has c with
           | Some true => option_map (fun m => mkopt m false) (set0 t Gone)
           | Some false => Some c
           | None => None
           end
  end.

(** A trivial copy of the union and the flag. *)
Definition as_is (c : opt) : option opt := match o_mem c with Gone => None | _ => Some c end.

Definition obind {A B} (o : option A) (f : A -> option B) : option B := match o with Some a => f a | None => None end.
Notation "'let!' x := a 'in' b" := (obind a (fun x => b)) (at level 200, x pattern, b at level 200).

(** 2127-2133: base() and construct.  The source, and the object that a move leaves in it. *)
Definition copy_ctor (s : opt) : option opt :=
  if l_tcc T then as_is s
  else let! c := empty in let! h := has s in
       if h then let! v := active s in construct v c else Some c.
Definition move_ctor (s : opt) : option (opt * opt) :=
  if l_tmc T then option_map (fun c => (c, s)) (as_is s)
  else let! c := empty in let! h := has s in
       if h then let! v := active s in let! c := construct v c in Some (c, mkopt (Value (l_left T v)) (o_flag s))
       else Some (c, s).

(** Assignment to the contained object. *)
Definition assign_value (v : V) (c : opt) : option opt :=
  match o_mem c with Value _ => Some (mkopt (Value v) (o_flag c)) | _ => None end.

(** 2113-2125 *)
Definition copy_assign (s c : opt) : option opt :=
  if l_tcc T && l_tca T && l_td T then as_is s
  else let! h := has s in
       if h then
         let! v := active s in let! h' := has c in
         if h' then assign_value v c else construct v c
       else reset c.
Definition move_assign (s c : opt) : option (opt * opt) :=
  if l_tmc T && l_tma T && l_td T then option_map (fun c => (c, s)) (as_is s)
  else let! h := has s in
       if h then
         let! v := active s in let! h' := has c in
         let! c := (if h' then assign_value v c else construct v c) in
         Some (c, mkopt (Value (l_left T v)) (o_flag s))
       else option_map (fun c => (c, s)) (reset c).

(** 2914-2930: from a value. *)
Definition set_value (v : V) (c : opt) : option opt :=
  if l_scalar T then construct v c
  else let! h := has c in
       if h then let! c := assign_value v c in verified c else construct v c.
(** 2873-2901, 2932-2977: from an option of another type, given by its value. *)
Definition conv_ctor (o : option V) : option opt :=
  let! c := empty in match o with Some v => construct v c | None => Some c end.
Definition conv_assign (o : option V) (c : opt) : option opt :=
  match o with
  | Some v => let! h := has c in
              if h then let! c := assign_value v c in verified c else construct v c
  | None => reset c
  end.
(** 3000-3014 *)
Definition emplace (v : V) (c : opt) : option opt := let! c := reset c in construct v c.
Definition try_emplace (v : V) (c : opt) : option opt :=
  let! h := has c in if h then Some c else construct v c.
(** 3035 *)
Definition take (c : opt) : option (opt * opt) :=
  let! p := move_ctor c in let! c := reset (snd p) in Some (fst p, c).
(** 3253-3271 *)
Definition swap (c d : opt) : option (opt * opt) :=
  let! h := has c in let! k := has d in
  if h then
    let! v := active c in
    if k then
      let! u := active d in
      if cxx20 || l_swap T then Some (mkopt (Value u) (o_flag c), mkopt (Value v) (o_flag d)) else None
    else
      let! d := construct v d in
      let! c := reset (mkopt (Value (l_left T v)) (o_flag c)) in
      Some (c, d)
  else if k then
    let! u := active d in
    let! c := construct u c in
    let! d := reset (mkopt (Value (l_left T u)) (o_flag d)) in
    Some (c, d)
  else Some (c, d).
(** 3059-3094 *)
Definition get (c : opt) : option V := if check vm (has c) then active c else None.
(** 1974, 2086; before C++20 a type with a destructor that is not trivial has no constants. *)
Definition destroy (c : opt) : option unit :=
  if l_td T then Some tt
  else if cxx20 then let! h := has c in if h then option_map (fun _ => tt) (active c) else Some tt
  else None.

(** Programs over variables, as in History.v; operands of a call are distinct variables. *)
Inductive stmt : Type :=
| New (x : nat) (i : option V)          (* option<T> x; option<T> x(v); *)
| NewConv (x : nat) (o : option V)      (* option<T> x(option<U>) *)
| NewCopy (x y : nat) | NewMove (x y : nat) | NewTake (x y : nat)
| NewMap (x y : nat) (f : V -> V)       (* option<T> x = y.map(f); *)
| Destroy (x : nat)
| Reset (x : nat)                       (* x.reset(); x = none; *)
| Set_ (x : nat) (v : V)                (* x = v; *)
| SetConv (x : nat) (o : option V)      (* x = option<U>; *)
| CopyAssign (x y : nat) | MoveAssign (x y : nat)
| Emplace (x : nat) (v : V) | TryEmplace (x : nat) (v : V)
| Swap (x y : nat)
| Has (x : nat) | Get (x : nat).

Inductive seen : Type := SawHas (h : bool) | SawValue (v : V).

Definition state : Type := list (option opt).
Definition slot (l : state) (x : nat) : option opt := match nth_error l x with Some (Some c) => Some c | _ => None end.
Definition free (l : state) (x : nat) : bool := match nth_error l x with Some None => true | _ => false end.

Definition declare (l : state) (x : nat) (o : option opt) : option (state * list seen) :=
  if free l x then option_map (fun c => (put l x (Some c), [])) o else None.
Definition declare2 (l : state) (x y : nat) (o : option (opt * opt)) : option (state * list seen) :=
  if free l x then option_map (fun p => (put (put l y (Some (snd p))) x (Some (fst p)), [])) o else None.
Definition change (l : state) (x : nat) (f : opt -> option opt) : option (state * list seen) :=
  let! c := slot l x in option_map (fun c => (put l x (Some c), [])) (f c).
Definition change2 (l : state) (x y : nat) (f : opt -> opt -> option (opt * opt)) : option (state * list seen) :=
  if Nat.eqb x y then None else
  let! c := slot l x in let! d := slot l y in
  option_map (fun p => (put (put l y (Some (snd p))) x (Some (fst p)), [])) (f c d).

Definition step (s : stmt) (l : state) : option (state * list seen) :=
  match s with
  | New x None => declare l x (if cxx20 || l_td T then empty else None)
  | New x (Some v) => declare l x (if cxx20 || l_td T then in_place v else None)
  | NewConv x o => declare l x (if cxx20 || l_td T then conv_ctor o else None)
  | NewCopy x y => let! d := slot l y in declare l x (copy_ctor d)
  | NewMove x y => let! d := slot l y in declare2 l x y (move_ctor d)
  | NewTake x y => let! d := slot l y in declare2 l x y (take d)
  | NewMap x y f =>
      let! d := slot l y in
      declare l x (let! h := has d in if h then let! v := active d in in_place (f v) else empty)
  | Destroy x => let! c := slot l x in option_map (fun _ => (put l x None, [])) (destroy c)
  | Reset x => change l x reset
  | Set_ x v => change l x (set_value v)
  | SetConv x o => change l x (conv_assign o)
  | CopyAssign x y => if Nat.eqb x y then None else let! d := slot l y in change l x (copy_assign d)
  | MoveAssign x y => change2 l x y (fun c d => move_assign d c)
  | Emplace x v => change l x (emplace v)
  | TryEmplace x v => change l x (try_emplace v)
  | Swap x y => change2 l x y swap
  | Has x => let! c := slot l x in option_map (fun h => (l, [SawHas h])) (has c)
  | Get x => let! c := slot l x in option_map (fun v => (l, [SawValue v])) (get c)
  end.

Fixpoint run (p : list stmt) (l : state) : option (state * list seen) :=
  match p with
  | [] => Some (l, [])
  | s :: p =>
      let! r := step s l in
      let! r' := run p (fst r) in
      Some (fst r', snd r ++ snd r')
  end.
End Type_.
End ConstEval.
Arguments traits V : clear implicits.
Arguments literal V : clear implicits.
Arguments member V : clear implicits.
Arguments opt V : clear implicits.
Arguments stmt V : clear implicits.
Arguments seen V : clear implicits.
Arguments state V : clear implicits.

(** Which traits can be evaluated: those that use memcpy (768-800, 1162-1500, 1532, 1568, 1586, 1659-1728) and
    those of options (3284-3320, not constexpr) cannot; those of the other types ask their members.  A user's
    sentinel_option_traits and option_traits are given the benefit of the doubt. *)
Fixpoint evaluable (t : ty) : bool :=
  match t with
  | TEnumSent _ _ | TSentTraits _ _ | TSentinel _ _ | TCustom _ _ _ _ _ _ => true
  | TPair _ t1 _ t2 _ _ => if (max_level t2 <? max_level t1)%N then evaluable t1 else evaluable t2
  | TTuple fs _ _ =>
      nth (index_of_max (map (fun f => max_level (snd f)) fs)) (map (fun f => evaluable (snd f)) fs) false
  | TArray _ t | TComplex t | TMember _ t _ _ | TEnforce t => evaluable t
  | _ => false
  end.
