(** The checks of result types in the project's tests (is_same_v<decltype(...), ...>). *)
From Coq Require Import List Bool.
From Verif Require Import Results ResultsSpec.
Import ListNotations.

Definition Int := Q false Val (Obj 0).
Definition CInt := Q true Val (Obj 0).
Definition Float := Q false Val (Obj 1).
Definition Unsigned := Q false Val (Obj 2).
Definition String := Q false Val (Obj 3).
Definition ref := add_lref.
Definition rref := add_rref.
Definition Vector := Obj 10.

(** The type of a result. *)
Definition ty_of (r : option (qty * how)) : option qty := match r with Some (t, _) => Some t | None => None end.
Definition opt (T : qty) := Some (option_of T).

(** functions.test.cpp 90-93: vector's operator[] gives int& or const int&. *)
Example at_vector :
  ty_of (at_value mlv Vector (ref Int)) = opt (ref Int) /\
  ty_of (at_value clv Vector (ref CInt)) = opt (ref CInt) /\
  ty_of (at_value mrv Vector (ref Int)) = opt (rref Int) /\
  ty_of (at_value crv Vector (ref CInt)) = opt (rref CInt).
Proof. repeat split. Qed.

(** 119-122: ct's operator[] gives an int. *)
Example at_ct : map (fun s => ty_of (at_value s (Obj 11) Int)) [mlv; clv; mrv; crv] = repeat (opt Int) 4.
Proof. reflexivity. Qed.

(** 195-206: lookup in map<int, string> and set<int>. *)
Example lookup_map : ty_of (lookup_value (ref String)) = opt (ref String) /\
  ty_of (lookup_value (ref (add_const String))) = opt (ref (add_const String)).
Proof. split; reflexivity. Qed.
Example lookup_set : ty_of (lookup_value (ref CInt)) = opt (ref CInt).
Proof. reflexivity. Qed.

(** 236-254: get of variant<int, float, unsigned>. *)
Definition variant3 := [Int; Float; Unsigned].
Example get_variant :
  map (fun s => ty_of (variant_get 0 s variant3)) [mlv; clv; mrv; crv] =
  [opt (ref Int); opt (ref CInt); opt (rref Int); opt (rref CInt)] /\
  ty_of (variant_get 1 mlv variant3) = opt (ref Float).
Proof. split; reflexivity. Qed.

(** special.test.cpp 104-106, 159-161: operator* of option<int&> and option<const int&>. *)
Example deref_reference :
  map (fun s => deref_of s (ref Int)) [mlv; clv; mrv] = repeat (Some (ref Int)) 3 /\
  map (fun s => deref_of s (ref CInt)) [mlv; clv; mrv] = repeat (Some (ref CInt)) 3.
Proof. split; reflexivity. Qed.

(** 299-302: get<0> of option<tuple<int, float>>. *)
Example get_tuple :
  map (fun s => ty_of (get_index 0 s (Q false Val (Tup [Int; Float])))) [mlv; clv; mrv; crv] =
  [opt (ref Int); opt (ref CInt); opt (rref Int); opt (rref CInt)].
Proof. reflexivity. Qed.
Example get_tuple_by_type : ty_of (get_by_type Float mlv (Q false Val (Tup [Int; Float]))) = opt (ref Float).
Proof. reflexivity. Qed.

(** option.test.cpp 615-638: make_option and the deduction guide option(T) -> option<T>, which is
    preferred to the copy deduction candidate only if the argument is not an option. *)
Definition deduce (e : qty) : qty := match q_base e with Opt T => option_of T | b => option_of (Q false Val b) end.
Example deduction :
  deduce (ref Int) = option_of Int /\ deduce (deduce (deduce Int)) = option_of Int /\
  ty_of (make_option_value (deduce Int)) = opt (option_of Int) /\
  ty_of (do m <- make_option_value (ref Int); make_option_value (fst m)) = opt (option_of Int) /\
  option_map deduce (ty_of (make_option_value (ref Int))) = opt Int /\
  deduce (ref (option_of (option_of Int))) = option_of (option_of Int).
Proof. repeat split. Qed.

(** 680-700: flatten. *)
Example flatten_types :
  ty_of (flatten_of mlv (nested 1 Int)) = opt (ref Int) /\ ty_of (flatten_of mrv (nested 1 Int)) = opt Int /\
  ty_of (flatten_of mlv (nested 2 Int)) = opt (ref Int) /\ ty_of (flatten_of mrv (nested 2 Int)) = opt Int.
Proof. repeat split. Qed.

(** The examples of reference.md 1567-1573; the fifth does not compile. *)
Example flatten_documented_examples :
  ty_of (flatten_of mrv (nested 1 Int)) = opt Int /\
  ty_of (flatten_of mlv (nested 1 Int)) = opt (ref Int) /\
  ty_of (flatten_of mrv (nested 1 (ref Int))) = opt (ref Int) /\
  ty_of (flatten_of mlv (nested 1 (ref Int))) = opt (ref Int) /\
  ty_of (flatten_of mlv (nested 1 (rref Int))) = None /\
  ty_of (flatten_of mrv (nested 1 (ref Int))) = opt (ref Int).
Proof. repeat split. Qed.

(** 798-850: unzip. *)
Example unzip_types :
  option_map fst (unzip_of mlv (Q false Val (Tup [Int; Float; Unsigned]))) =
  Some (Q false Val (Tup [option_of Int; option_of Float; option_of Unsigned])).
Proof. reflexivity. Qed.

(** special.test.cpp 1677-1724: map with pointers to members; c_t is class 20 with an int member, f_t is
    class 21 with float function() const. *)
Definition c_t (c : bool) := Q c Val (Obj 20).
Definition f_t (c : bool) := Q c Val (Obj 21).
Definition map_member (s : self) (T : qty) : option qty :=
  ty_of (do e <- passes Map s T; do r <- invoke_data 20 Int e; map_value r).
Definition map_function (s : self) (T : qty) : option qty :=
  ty_of (do e <- passes Map s T; do r <- invoke_member 21 true Float e; map_value r).

Example map_data :
  map (fun s => map_member s (c_t false)) [mlv; clv; mrv; crv] =
  [opt (ref Int); opt (ref CInt); opt (rref Int); opt (rref CInt)] /\
  map_member mrv (Q false Val (Rw (c_t false))) = opt (ref Int) /\
  map_member mrv (Q false Val (Rw (c_t true))) = opt (ref CInt) /\
  map (fun s => map_member s (Q false Val (Ptr (c_t false)))) [mlv; mrv] = [opt (ref Int); opt (ref Int)] /\
  map (fun s => map_member s (Q false Val (Ptr (c_t true)))) [mlv; mrv] = [opt (ref CInt); opt (ref CInt)].
Proof. repeat split. Qed.

Example map_functions :
  map (fun s => map_function s (f_t false)) [mlv; clv; mrv; crv] = repeat (opt Float) 4 /\
  map_function mrv (Q false Val (Rw (f_t false))) = opt Float /\
  map_function mrv (Q false Val (Rw (f_t true))) = opt Float /\
  map (fun s => map_function s (Q false Val (Ptr (f_t false)))) [mlv; mrv] = repeat (opt Float) 2 /\
  map (fun s => map_function s (Q false Val (Ptr (f_t true)))) [mlv; mrv] = repeat (opt Float) 2.
Proof. repeat split. Qed.
