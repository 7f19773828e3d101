(** A type of the universe (Types.v) as a class in the sense of Lifetime.v.

    Links the two descriptions of option_destruct_base (include/opt/option.hpp 1898-2110): by bytes
    (OptBytes.v) and by objects (Lifetime.v).  An object is its representation; its members copy bytes
    and its destructor does nothing to them, as in OptBytes.v.  Which members count as trivial is free.

    lmax is the number of levels that the traits can tell apart ([levels] of TypesSpec.v, which equals
    max_level up to the two exceptions named there); both decide in the same way between flag and traits
    for the types that are well-formed inside an option.  get_level is made total: where its outcome is
    undefined the class answers with the largest number. *)
From Coq Require Import ZArith NArith List Bool.
From Verif Require Import Outcome Words Ints Types OptBytes TypesSpec Lifetime LifetimeSpec.
Open Scope N_scope.

(** Contents of n bytes of storage. *)
Definition sizedb (n : nat) (b : bytes) : bool := Nat.eqb (length b) n && forallb (fun x => x <? 256) b.
Definition storage (n : nat) : Type := { b : bytes | sizedb n b = true }.
Definition content {n} (s : storage n) : bytes := proj1_sig s.
(** Contents [b]; [s] is used if b has the wrong size. *)
Definition store {n} (s : storage n) (b : bytes) : storage n :=
  match bool_dec (sizedb n b) true with
  | left e => exist _ b e
  | right _ => s
  end.

(** Which members of T are trivial, and std::is_scalar_v<T>. *)
Record triviality : Type := mktriv {
  t_td : bool; t_tcc : bool; t_tca : bool; t_tmc : bool; t_tma : bool; t_scalar : bool
}.
(** The traits of the standard library imply these. *)
Definition sane (k : triviality) : Prop :=
  (t_tcc k = true -> t_td k = true) /\ (t_tmc k = true -> t_td k = true) /\ (t_scalar k = true -> t_td k = true).

Section ByteClass.
Context (W : Type) (k : triviality) (t : ty).
Notation obj := (storage (sizeof t)).

(** The arguments of constructors are those for which T's constructor makes a value of T. *)
Definition byte_init : Type := { s : obj | valid t (content s) }.

Definition byte_level (s : obj) : N :=
  match get_level t (content s) with
  | Ok l => N.min l (umax_base - 1)
  | _ => umax_base - 1
  end.
Definition byte_set (l : N) (s : obj) : obj :=
  match set_level t l (content s) with
  | Ok b => store s b
  | _ => s
  end.

Definition byte_cls : cls W := {|
  raw := obj;
  init := byte_init;
  td := t_td k; tcc := t_tcc k; tca := t_tca k; tmc := t_tmc k; tma := t_tma k; scalar := t_scalar k;
  ctor := fun i _ w => Ret (proj1_sig i, w);
  cctor := fun s _ w => Ret (s, w);
  mctor := fun _ sw => Ret (fst sw, sw);
  asgn := fun i _ w => Ret (proj1_sig i, w);
  cassign := fun s _ w => Ret (s, w);
  massign := fun _ sw => Ret (fst sw, sw);
  self_cassign := fun r w => Ret (r, w);
  self_massign := fun r w => Ret (r, w);
  swp := fun r sw => Ret (fst sw, (r, snd sw));
  self_swp := fun r w => Ret (r, w);
  dtor := fun r w => Ret (r, w);
  lmax := levels t;
  lget := byte_level;
  lset := byte_set
|}.

(** Its values are the byte strings that are values of T. *)
Definition byte_sem : sem byte_cls := {|
  V := bytes;
  ok := (fun s => valid t (content s)) : raw byte_cls -> Prop;
  val := content : raw byte_cls -> bytes;
  denotes := (fun i v => v = content (proj1_sig i)) : init byte_cls -> bytes -> Prop;
  mv := eq;
  selfmv := eq;
  own := fun _ => 0%Z;
  cnt := fun _ => 0%Z;
  stops := False
|}.
End ByteClass.

(** * Cells and bytes *)

(** [R r b]: the storage contents r of class C are the bytes b. *)
Definition repr {W} (C : cls W) : Type := raw C -> bytes -> Prop.

Definition byte_repr {W} (k : triviality) (t : ty) : repr (byte_cls W k t) := fun s b => b = content s.

(** An option is the bytes of its union member, followed by the flag if there is one (1909, 1947);
    bytes after the flag are padding. *)
Definition opt_repr {W} {C : cls W} (t : ty) (R : repr C) : repr (opt_cls C) := fun c b =>
  sized (sizeof (TOption t)) b /\ R (c_raw c) (slice 0 (sizeof t) b) /\
  (max_level t = 0 -> read_word (sizeof t) 1 b = c_flag c).

Fixpoint nest_repr {W} (n : nat) (C : cls W) (t : ty) (R : repr C) : repr (nest_cls n C) :=
  match n with
  | O => R
  | S n => opt_repr (nest n t) (nest_repr n C t R)
  end.
