(** opt::option<T> as an object representation: what its members do to the bytes.

    [b] is the object representation of an option<T>, [v] that of a T.  Destructors of T that do
    work are the subject of Lifetime.v; here T's destructor does not touch the bytes.

    Modelled: include/opt/option.hpp 1898-2110 (option_destruct_base), 2112-2129, 2904-2975, 2996-3040,
    3060-3125, 3253-3268. *)
From Coq Require Import ZArith NArith List Bool.
From Verif Require Import Outcome Words Ints Types.
Import ListNotations.
Open Scope N_scope.
Open Scope res_scope.

(** Reading a bool object: any byte other than 0 and 1 is not a value of type bool. *)
Definition read_bool (off : nat) (b : bytes) : res bool :=
  let x := read_word off 1 b in
  if x =? 0 then Ok false else if x =? 1 then Ok true else UB.
Definition write_bool (off : nat) (v : bool) (b : bytes) : bytes :=
  write_word off 1 (if v then 1 else 0) b.

(** option.hpp 1938-1940, 1986-1988, 2041-2043, 2099-2101: has_value().  The HasTraits parameter
    (1900) selects between the stored flag and get_level(value) != 0. *)
Definition opt_has_value (t : ty) (b : bytes) : res bool :=
  if max_level t =? 0 then read_bool (sizeof t) b
  else rmap (fun l => negb (l =? 0)) (get_level t b).

(** option.hpp 1916-1917, 1955-1956, 2010-2014, 2061-2065: default construction, over storage
    holding arbitrary bytes.  option(none_t) is the same (2839-2840). *)
Definition opt_default (t : ty) (b : bytes) : res bytes :=
  if max_level t =? 0 then Ok (write_bool (sizeof t) false b)
  else let* b' := set_level t 0 b in
       let* h := opt_has_value t b' in
       verify (negb h) (Ok b').

(** option.hpp 1941-1945, 1989-1993, 2044-2048, 2102-2106: construct(), and the in-place
    constructors 1919-1933, 1958-1972, 2015-2035, 2066-2085.  [v] is the representation of the new T. *)
Definition opt_construct (t : ty) (v b : bytes) : res bytes :=
  let b' := splice 0 v b in
  if max_level t =? 0 then Ok (write_bool (sizeof t) true b')
  else let* h := opt_has_value t b' in
       verify h (Ok b').

(** option.hpp 1935-1937, 2037-2040 (trivially destructible T, [td = true]) and 1980-1985, 2092-2098
    (T with a destructor, which here leaves the bytes alone): reset(), also operator=(none_t) (2904). *)
Definition opt_reset (td : bool) (t : ty) (b : bytes) : res bytes :=
  let clear :=
    if max_level t =? 0 then Ok (write_bool (sizeof t) false b)
    else let* b' := set_level t 0 b in
         let* h := opt_has_value t b' in
         verify (negb h) (Ok b') in
  if td then clear
  else let* h := opt_has_value t b in
       if h then clear else Ok b.

(** option.hpp 3060-3125 (get and the dereference operators): OPTION_VERIFY(has_value()) and the
    contained object. *)
Definition opt_get (t : ty) (b : bytes) : res bytes :=
  let* h := opt_has_value t b in
  verify h (Ok (slice 0 (sizeof t) b)).

(** Assignment of v through the reference get() returns; nothing checks the result. *)
Definition opt_put (t : ty) (v b : bytes) : res bytes :=
  let* h := opt_has_value t b in
  verify h (Ok (splice 0 v b)).

(** option.hpp 3002-3006: emplace is reset() then construct(). *)
Definition opt_emplace (td : bool) (t : ty) (v b : bytes) : res bytes :=
  let* b' := opt_reset td t b in opt_construct t v b'.

(** option.hpp 3010-3015. *)
Definition opt_try_emplace (t : ty) (v b : bytes) : res bytes :=
  let* h := opt_has_value t b in
  if h then Ok b else opt_construct t v b.

(** option.hpp 2916-2930, operator=(U&&) for non-reference T; [scalar] is std::is_scalar_v<T>. *)
Definition opt_assign_value (scalar : bool) (t : ty) (v b : bytes) : res bytes :=
  if scalar then opt_construct t v b
  else let* h := opt_has_value t b in
       if h then let b' := splice 0 v b in
                 let* h' := opt_has_value t b' in
                 verify h' (Ok b')
       else opt_construct t v b.

(** option.hpp 2112-2123, option_assign_from_option: copy and move assignment. *)
Definition opt_assign (td : bool) (t : ty) (other b : bytes) : res bytes :=
  let* ho := opt_has_value t other in
  if ho then
    let* h := opt_has_value t b in
    let v := slice 0 (sizeof t) other in
    if h then Ok (splice 0 v b) else opt_construct t v b
  else opt_reset td t b.

(** option.hpp 2124-2129, option_construct_from_option, called by the custom copy and move
    constructors (2148-2150 and others) after default construction. *)
Definition opt_copy (t : ty) (other b : bytes) : res bytes :=
  let* b' := opt_default t b in
  let* ho := opt_has_value t other in
  if ho then opt_construct t (slice 0 (sizeof t) other) b' else Ok b'.

(** option.hpp 3036-3040: take() moves the option into a temporary, resets it, returns the temporary.
    Result: (returned object, new object). *)
Definition opt_take (td : bool) (t : ty) (b fresh : bytes) : res (bytes * bytes) :=
  let* r := opt_copy t b fresh in
  let* b' := opt_reset td t b in
  Ok (r, b').

(** option.hpp 3253-3268, swap with another option<T>.  Result: (new object, new other). *)
Definition opt_swap (td : bool) (t : ty) (b other : bytes) : res (bytes * bytes) :=
  let* h := opt_has_value t b in
  let* ho := opt_has_value t other in
  if negb h && negb ho then Ok (b, other)
  else if h && ho then
    Ok (splice 0 (slice 0 (sizeof t) other) b, splice 0 (slice 0 (sizeof t) b) other)
  else if h then
    let* other' := opt_construct t (slice 0 (sizeof t) b) other in
    let* b' := opt_reset td t b in
    Ok (b', other')
  else
    let* b' := opt_construct t (slice 0 (sizeof t) other) b in
    let* other' := opt_reset td t other in
    Ok (b', other').

(** * Nested options *)

(** option<option<...<T>...>>, n times. *)
Fixpoint nest (n : nat) (t : ty) : ty :=
  match n with
  | O => t
  | S n' => TOption (nest n' t)
  end.

(** Apply [f] to the object [k] layers down (k dereferences), which is the prefix of
    the storage; each dereference checks has_value(). *)
Fixpoint update_at (k : nat) (t : ty) (f : bytes -> res bytes) (b : bytes) : res bytes :=
  match k, t with
  | O, _ => f b
  | S k', TOption t' =>
      let* h := opt_has_value t' b in
      verify h (rmap (fun v => splice 0 v b) (update_at k' t' f (slice 0 (sizeof t') b)))
  | S _, _ => UB
  end.

(** The object some(some(...x)) with k somes, built inside out by the constructors; x is none when
    k < n and the T value [v] when k = n.  [junk] is the prior content of the storage. *)
Fixpoint build (n : nat) (t : ty) (k : nat) (v junk : bytes) : res bytes :=
  match n with
  | O => Ok v
  | S n' =>
      match k with
      | O => opt_default (nest n' t) junk
      | S k' =>
          let* x := build n' t k' v (slice 0 (sizeof (nest n' t)) junk) in
          opt_construct (nest n' t) x junk
      end
  end.
