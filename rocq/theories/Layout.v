(** Layouts computed from declarations.

    Types.v gives every aggregate its offsets, size and alignment explicitly.  Here a type is declared by its members
    only, and the offsets are computed as compilers do for members of class type without empty classes, bit-fields
    and reused tail padding: each member at the next multiple of its alignment, in the order of declaration, the
    whole rounded up to the largest alignment.  std::tuple stores its elements in order (libc++, MSVC) or in the
    reverse order (libstdc++).  option<T> is laid out by [sizeof] (option.hpp 1898-2110). *)
From Coq Require Import ZArith NArith List Bool.
From Verif Require Import Outcome Words Ints Types OptBytes TypesSpec Lifetime History ByteClass ByteProg.
Import ListNotations.
Open Scope nat_scope.

Inductive decl : Type :=
| DType (t : ty)                          (* a type whose members are not named *)
| DComplex (d : decl)
| DPair (a b : decl)
| DTuple (backwards : bool) (ds : list decl)
| DArray (n : nat) (d : decl)
| DMember (before : list decl) (d : decl) (after : list decl)    (* a struct with option_traits from opt::member *)
| DEnforce (d : decl)
| DOption (d : decl).

(** Objects one after the other from [off] on: their offsets, and where they end. *)
Fixpoint lay (off : nat) (ts : list ty) : list (nat * ty) * nat :=
  match ts with
  | [] => ([], off)
  | t :: ts =>
      let o := round_up off (alignof t) in
      let (fs, e) := lay (o + sizeof t) ts in
      ((o, t) :: fs, e)
  end.

Definition struct_align (ts : list ty) : nat := fold_right (fun t a => Nat.max (alignof t) a) 1 ts.
Definition struct_size (ts : list ty) : nat := round_up (Nat.max 1 (snd (lay 0 ts))) (struct_align ts).

Definition pair_of (t1 t2 : ty) : ty :=
  match fst (lay 0 [t1; t2]) with
  | [(o1, _); (o2, _)] => TPair o1 t1 o2 t2 (struct_size [t1; t2]) (struct_align [t1; t2])
  | _ => TBool
  end.
Definition tuple_of (backwards : bool) (ts : list ty) : ty :=
  if backwards then TTuple (rev (fst (lay 0 (rev ts)))) (struct_size (rev ts)) (struct_align (rev ts))
  else TTuple (fst (lay 0 ts)) (struct_size ts) (struct_align ts).
Definition member_of (before : list ty) (t : ty) (after : list ty) : ty :=
  let ts := before ++ t :: after in
  match nth_error (fst (lay 0 ts)) (length before) with
  | Some (o, _) => TMember o t (struct_size ts) (struct_align ts)
  | None => TBool
  end.

Fixpoint layout (d : decl) : ty :=
  match d with
  | DType t => t
  | DComplex d => TComplex (layout d)
  | DPair a b => pair_of (layout a) (layout b)
  | DTuple backwards ds => tuple_of backwards (map layout ds)
  | DArray n d => TArray n (layout d)
  | DMember before d after => member_of (map layout before) (layout d) (map layout after)
  | DEnforce d => TEnforce (layout d)
  | DOption d => TOption (layout d)
  end.

(** Variables in memory, from address 0 on (a multiple of every alignment), and the number of bytes. *)
Definition variables (ds : list decl) : list (nat * ty) := fst (lay 0 (map layout ds)).
Definition extent (ds : list decl) : nat := snd (lay 0 (map layout ds)).
