(** impl::construct_at, which starts the lifetime of the contained object in base::construct.

    Models: include/opt/option.hpp 649-669.  In C++20 it is std::construct_at, that is placement new:
    Lifetime.v.  In C++17 a T with a trivial move assignment is made as a temporary that is then
    assigned to the storage, "ptr = T(args...)" through the pointer (655-660); only otherwise is it
    made in the storage (662-666).  The trivial assignment copies the contents of the temporary; the
    temporary is destroyed at the end of the full expression.

    Assigning to storage in which no T lives is not allowed by the letter of the C++17 standard; the
    model takes it as the copy of bytes that compilers make of it. *)
From Coq Require Import NArith ZArith Bool List.
From Verif Require Import Outcome Words Lifetime LifetimeSpec History.
Import ListNotations.
Open Scope N_scope.

Section ConstructAt.
Context {W : Type} (C : cls W).

(** construct_at(ptr, args...) for C++17: [mk] is the constructor of T that the arguments select, [d]
    the destructor of T, [tmp] what the storage of the temporary held before, [r] the contents of
    *ptr.  An exception of the constructor leaves *ptr alone. *)
Definition construct_at17 {W'} (d : raw C -> W' -> out (raw C * W')) (tmp : raw C)
  (mk : raw C -> W' -> out (raw C * W')) (r : raw C) (w : W') : out (raw C * W') :=
  if tma C then
    match mk tmp w with
    | Ret (t, w') =>
        if td C then Ret (t, w')
        else
          match nothrow (d t w') with
          | Ret (_, w'') => Ret (t, w'')
          | Exn p => Exn p
          | Abort => Abort
          | Undef => Undef
          end
    | Exn (_, w') => Exn (r, w')
    | Abort => Abort
    | Undef => Undef
    end
  else mk r w.

(** The class T as base::construct of a C++17 program sees it.  Argument packs carry whether they go
    through construct_at ([true]) or initialize the union member directly ([false], the in-place
    constructors 1920-1933, 1959-1972, 2016-2035, 2067-2085).  Copies and moves of the contained
    object are always made by construct (2117, 2126, 3263, 3267). *)
Definition at17 (tmp : raw C) : cls W := {|
  raw := raw C;
  init := bool * init C;
  td := td C;
  tcc := tcc C;
  tca := tca C;
  tmc := tmc C;
  tma := tma C;
  scalar := scalar C;
  ctor := fun i => if fst i then construct_at17 (dtor C) tmp (ctor C (snd i)) else ctor C (snd i);
  cctor := fun s => construct_at17 (dtor C) tmp (cctor C s);
  mctor := construct_at17 (lift (dtor C)) tmp (mctor C);
  asgn := fun i => asgn C (snd i);
  cassign := cassign C;
  massign := massign C;
  self_cassign := self_cassign C;
  self_massign := self_massign C;
  swp := swp C;
  self_swp := self_swp C;
  dtor := dtor C;
  lmax := lmax C;
  lget := lget C;
  lset := lset C
|}.

Definition sem17 (tmp : raw C) (S : sem C) : sem (at17 tmp) := {|
  V := V S;
  ok := ok S : raw (at17 tmp) -> Prop;
  val := val S : raw (at17 tmp) -> _;
  denotes := (fun i => denotes S (snd i)) : init (at17 tmp) -> _ -> Prop;
  mv := mv S;
  selfmv := selfmv S;
  own := own S : raw (at17 tmp) -> Z;
  cnt := cnt S;
  stops := stops S
|}.

(** A program of History.v compiled as C++17. *)
Definition cell17 (tmp : raw C) (c : cell C) : cell (at17 tmp) :=
  mkcell (C := at17 tmp) (c_raw c) (c_flag c) (c_alive c).

(** Constructors of option<T>: a value or arguments in place, a converted option by construct (2878,
    2885, 2892, 2899). *)
Definition new17 (i : oinit (init C)) : oinit (bool * init C) :=
  match i with
  | INone => INone
  | IVal i => IVal (false, i)
  | IConv None => IConv None
  | IConv (Some i) => IConv (Some (true, i))
  end.

(** Assignments: construct (2920, 2926, 2947, 2970). *)
Definition set17 (i : oinit (init C)) : oinit (bool * init C) :=
  match i with
  | INone => INone
  | IVal i => IVal (true, i)
  | IConv None => IConv None
  | IConv (Some i) => IConv (Some (true, i))
  end.

Definition call17 (tmp : raw C) (S : sem C) (o : call C S)
  : call (at17 tmp) (sem17 tmp S) :=
  let S17 := sem17 tmp S in
  match o with
  | New x i g => New (Sm := S17) x (new17 i) (cell17 tmp g)
  | NewCopy x y g => NewCopy (Sm := S17) x y (cell17 tmp g)
  | NewMove x y g => NewMove (Sm := S17) x y (cell17 tmp g)
  | NewTake nrvo x y g => NewTake (Sm := S17) nrvo x y (cell17 tmp g)
  | NewTakeIf nrvo p pr x y g => NewTakeIf (Sm := S17) nrvo p pr x y (cell17 tmp g)
  | Destroy x => Destroy (Sm := S17) x
  | Assign x i => Assign (Sm := S17) x (set17 i)
  | CopyAssign x y => CopyAssign (Sm := S17) x y
  | MoveAssign x y => MoveAssign (Sm := S17) x y
  | Reset x => Reset (Sm := S17) x
  | Emplace x i => Emplace (Sm := S17) x (true, i)
  | TryEmplace x i => TryEmplace (Sm := S17) x (true, i)
  | EmplaceFrom x y => EmplaceFrom (Sm := S17) x y
  | SetFrom x y => SetFrom (Sm := S17) x y
  | Swap x y => Swap (Sm := S17) x y
  | Update x f fr => Update (Sm := S17) x f fr
  end.

(** Programs that make contained objects only by the constructors from a value or from arguments (2842-2871):
    nothing of theirs goes through construct_at. *)
Definition in_place {S : sem C} (o : call C S) : Prop :=
  match o with
  | New _ (IConv _) _ => False
  | New _ _ _ | Destroy _ | Reset _ | Update _ _ _ => True
  | _ => False
  end.

(** Calls that make an object in variable x by construct: the assignments and emplace (2920, 2926, 2947, 2970,
    3006, 3014) if x has no value, the converting constructors (2878-2899). *)
Definition by_construct {S : sem C} (o : call C S) (x : nat) : Prop :=
  match o with
  | New y (IConv (Some _)) _ | Assign y (IVal _) | Assign y (IConv (Some _)) | Emplace y _ | TryEmplace y _ => x = y
  | _ => False
  end.

End ConstructAt.
Arguments by_construct {W C S} o x.
Arguments in_place {W C S} o.
Arguments construct_at17 {W} C {W'} d tmp mk r w.
Arguments at17 {W} C tmp.
Arguments sem17 {W} C tmp S.
Arguments cell17 {W} C tmp c.
Arguments call17 {W} C tmp S o.

(** Options of options in C++17: the inner option is itself made by construct_at.  The storage of a
    temporary option<T> holds the flag byte [fl] and the contents that a temporary T finds. *)
Fixpoint nest17 {W} (n : nat) (fl : N) (C : cls W) (tmp : raw C) (Sm : sem C)
  : { D : cls W & (raw D * sem D)%type } :=
  match n with
  | O => existT _ (at17 C tmp) (tmp, sem17 C tmp Sm)
  | S n =>
      let (D, tS) := nest17 n fl C tmp Sm in
      let u := mkcell (C := D) (fst tS) fl false in
      existT _ (at17 (opt_cls D) u) (u, sem17 (opt_cls D) u (opt_sem D (snd tS)))
  end.

(** A class that counts its instances: user-provided constructors, copy constructor and destructor,
    the assignments left implicit and so trivial.  The world is the number of instances. *)
Definition counted : cls Z := {|
  raw := N;
  init := N;
  td := false;
  tcc := false;
  tca := true;
  tmc := false;
  tma := true;
  scalar := false;
  ctor := fun i _ w => Ret (i, (w + 1)%Z);
  cctor := fun s _ w => Ret (s, (w + 1)%Z);
  mctor := fun _ sw => Ret (fst sw, (fst sw, (snd sw + 1)%Z));
  asgn := fun i _ w => Ret (i, w);
  cassign := fun s _ w => Ret (s, w);
  massign := fun _ sw => Ret (fst sw, sw);
  self_cassign := fun r w => Ret (r, w);
  self_massign := fun r w => Ret (r, w);
  swp := fun a bw => Ret (fst bw, (a, snd bw));
  self_swp := fun r w => Ret (r, w);
  dtor := fun r w => Ret (r, (w - 1)%Z);
  lmax := 0;
  lget := fun _ => 0;
  lset := fun _ r => r
|}.

Definition counted_sem : sem counted := {|
  V := N;
  ok := fun _ : raw counted => True;
  val := fun r : raw counted => r;
  denotes := fun (i : init counted) v => v = i;
  mv := fun v v' => v' = v;
  selfmv := fun v v' => v' = v;
  own := fun _ => 1%Z;
  cnt := fun w => w;
  stops := False
|}.

(** A trivially copyable class with one unused state whose constructor writes a value into its storage
    and then may throw. *)
Definition hasty : cls (list bool) := {|
  raw := N;
  init := N;
  td := true;
  tcc := true;
  tca := true;
  tmc := true;
  tma := true;
  scalar := false;
  ctor := fun i _ w =>
    match w with
    | true :: w => Exn (i + 1, w)
    | false :: w => Ret (i + 1, w)
    | [] => Ret (i + 1, [])
    end;
  cctor := fun s _ w => Ret (s, w);
  mctor := fun _ sw => Ret (fst sw, sw);
  asgn := fun i _ w => Ret (i + 1, w);
  cassign := fun s _ w => Ret (s, w);
  massign := fun _ sw => Ret (fst sw, sw);
  self_cassign := fun r w => Ret (r, w);
  self_massign := fun r w => Ret (r, w);
  swp := fun a bw => Ret (fst bw, (a, snd bw));
  self_swp := fun r w => Ret (r, w);
  dtor := fun r w => Ret (r, w);
  lmax := 1;
  lget := fun r => if r =? 0 then 0 else 1;
  lset := fun _ _ => 0
|}.

Definition hasty_sem : sem hasty := {|
  V := N;
  ok := fun r : raw hasty => r <> 0;
  val := fun r : raw hasty => r - 1;
  denotes := fun (i : init hasty) v => v = i;
  mv := fun v v' => v' = v;
  selfmv := fun v v' => v' = v;
  own := fun _ => 0%Z;
  cnt := fun _ => 0%Z;
  stops := False
|}.
