(** C56, C57, C58: result types, value categories, and which calls compile. *)
From Coq Require Import List Bool Arith.
From Verif Require Import Results ResultsSpec ResultsFacts.
Import ListNotations.

(** C56: the member functions.  get, get_unchecked, operator*, value_or_throw and value. *)
Theorem C56_access : forall s T,
  get_of s T = Some (access s T) /\ unchecked_of s T = Some (access s T) /\ deref_of s T = Some (access s T) /\
  throw_of s T = Some (access s T) /\ value_of s T = Some (access s T).
Proof. exact access_all. Qed.
Print Assumptions C56_access.

Theorem C56_arrow : forall s T, arrow_of s T = Some (Q (negb (may_write s T)) Val (q_base T)).
Proof. exact arrow_access. Qed.
Print Assumptions C56_arrow.

(** What the given functions receive. *)
Theorem C56_passes : forall u s T, (u = TakeIf -> s_const s = false) ->
  passes u s T = Some (match u with Filter | TakeIf => access (lv s) T | _ => access s T end).
Proof. exact passes_access. Qed.
Print Assumptions C56_passes.

Theorem C56_value_or : forall s T, is_ref T = false ->
  value_or_value s T =
  if s_rv s && negb (s_const s) && q_const T then None else Some (bare T, obtained s T).
Proof. exact value_or_exact. Qed.
Print Assumptions C56_value_or.

Theorem C56_value_or_reference : forall s T, is_ref T = true ->
  value_or_value s T = if is_lref T || s_rv s && negb (s_const s) then Some (T, Bound) else None.
Proof. exact value_or_reference. Qed.
Print Assumptions C56_value_or_reference.

Theorem C56_value_or_construct : forall s T, is_ref T = false -> construct_value s T = Some (bare T, obtained s T).
Proof. exact construct_exact. Qed.
Print Assumptions C56_value_or_construct.

(** value_or on an rvalue option<const T> does not compile, though value_or_construct does. *)
Theorem C56_value_or_refuted : exists s T,
  construct_value s T = Some (bare T, Copied) /\ value_or_value (lv s) T = Some (bare T, Copied) /\ value_or_value s T = None.
Proof. exact value_or_const. Qed.
Print Assumptions C56_value_or_refuted.

Theorem C56_value_or_default : forall T u, q_base u = q_base T ->
  value_or_default T u =
  match q_kind T with
  | Val => Some (bare T, Built)
  | LRef => if implb (q_const u) (q_const T) && (is_lref u || q_const T) then Some (T, Bound) else None
  | RRef => if implb (q_const u) (q_const T) then Some (T, Bound) else None
  end.
Proof. exact value_or_default_exact. Qed.
Print Assumptions C56_value_or_default.

(** value_or of option<X&&> gives the default, an lvalue, as an rvalue. *)
Theorem C56_value_or_default_refuted : exists T u t h,
  is_lref u = true /\ value_or_default T u = Some (t, h) /\ movable_expr t = true /\ h = Bound.
Proof. exact value_or_default_steals. Qed.
Print Assumptions C56_value_or_default_refuted.

Theorem C56_or_else : forall s T,
  or_else_value s T = Some (option_of T, if s_rv s && negb (s_const s) then Moved else Copied).
Proof. exact or_else_exact. Qed.
Print Assumptions C56_or_else.

Theorem C56_filter : forall s T,
  filter_value s T = match regained s T with Some h => Some (option_of T, h) | None => None end.
Proof. exact filter_exact. Qed.
Print Assumptions C56_filter.

Theorem C56_map : forall R, map_value R = Some (option_of (if is_ref R then R else bare R), if is_ref R then Bound else Built).
Proof. exact map_exact. Qed.
Print Assumptions C56_map.

Theorem C56_option_cast : forall s T, option_cast_source s T =
  Some (access (if s_rv s && negb (s_const s) then s else {| s_const := true; s_rv := false |}) T).
Proof. exact option_cast_exact. Qed.
Print Assumptions C56_option_cast.

Theorem C56_make_option : forall e,
  make_option_value e = Some (option_of (bare e), if movable_expr e then Moved else Copied).
Proof. exact make_option_exact. Qed.
Print Assumptions C56_make_option.

Theorem C56_from_nullable : forall c b, from_nullable_value (Q c Val b) = Some (option_of (Q c LRef b), Bound).
Proof. exact from_nullable_exact. Qed.
Print Assumptions C56_from_nullable.

(** A pointer to a data member: of the object itself, or of what it points or refers to. *)
Theorem C56_member_of_object : forall n c k M,
  invoke_data n M (Q c k (Obj n)) = Some (Q (c || q_const M) (match k with LRef => LRef | _ => RRef end) (q_base M)).
Proof. exact invoke_data_object. Qed.
Print Assumptions C56_member_of_object.

Theorem C56_member_of_referent : forall n c k c' k' M b, b = Ptr (Q c' k' (Obj n)) \/ b = Rw (Q c' k' (Obj n)) ->
  invoke_data n M (Q c k b) = Some (Q (c' || q_const M) LRef (q_base M)).
Proof. exact invoke_data_pointer. Qed.
Print Assumptions C56_member_of_referent.

Theorem C56_member_function : forall n fc R c k b t,
  (b = Obj n /\ t = c) \/ (exists k', b = Ptr (Q t k' (Obj n)) \/ b = Rw (Q t k' (Obj n))) ->
  invoke_member n fc R (Q c k b) = if implb t fc then Some R else None.
Proof. exact invoke_member_exact. Qed.
Print Assumptions C56_member_function.

(** operator*() && is documented to give an rvalue also for a reference; it gives an lvalue. *)
Theorem C56_documented_refuted : exists s T, deref_of s T <> Some (documented_deref s T).
Proof. exact documented_deref_differs. Qed.
Print Assumptions C56_documented_refuted.

(** On an rvalue option, inspect passes an rvalue although the option stays in use. *)
Theorem C56_inspect_moves : exists s T e, passes Inspect s T = Some e /\ inits (bare e) e = Some Moved.
Proof. exact inspect_moves. Qed.
Print Assumptions C56_inspect_moves.

Example C56_ex :
  get_of crv (Q false Val (Obj 0)) = Some (Q true RRef (Obj 0)) /\
  get_of mrv (Q false LRef (Obj 0)) = Some (Q false LRef (Obj 0)) /\
  get_of clv (Q false LRef (Obj 0)) = Some (Q false LRef (Obj 0)) /\
  value_or_value mrv (Q false Val (Obj 0)) = Some (Q false Val (Obj 0), Moved) /\
  filter_value mlv (Q false RRef (Obj 0)) = None /\
  passes Map mrv (Q true Val (Obj 0)) = Some (Q true RRef (Obj 0)).
Proof. repeat split. Qed.

(** C57: elements: at, get, lookup, zip, unzip, flatten. *)
Theorem C57_at : forall s cont a,
  at_value s cont a =
  Some (option_of (result_kind s a), match q_kind a with Val => if q_const a then Copied else Moved | _ => Bound end).
Proof. exact at_exact. Qed.
Print Assumptions C57_at.

Theorem C57_get_index : forall i s c k (l : list qty) E, nth_error l i = Some E ->
  get_index i s (Q c k (Tup l)) =
  Some (option_of (Q (negb (may_write (element_self s (Q c k (Tup l))) E)) (if s_rv s then RRef else LRef) (q_base E)), Bound).
Proof. exact get_index_exact. Qed.
Print Assumptions C57_get_index.

(** If the option owns the tuple and the tuple the element, the element may be moved from exactly if
    the option may. *)
Theorem C57_get_owned : forall i s c k (l : list qty) E, nth_error l i = Some E -> k <> LRef -> is_lref E = false ->
  exists t, get_index i s (Q c k (Tup l)) = Some (option_of t, Bound) /\ movable_expr t = element_moves s (Q c k (Tup l)) E.
Proof. exact get_index_owned. Qed.
Print Assumptions C57_get_owned.

(** A temporary option that merely refers to a tuple: get gives its element as an rvalue. *)
Theorem C57_get_refuted : exists i s T t,
  get_index i s T = Some (option_of t, Bound) /\ movable_expr t = true /\ is_lref T = true.
Proof. exact get_index_steals. Qed.
Print Assumptions C57_get_refuted.

Theorem C57_get_element_refuted : exists i s l E t,
  get_index i s (Q false Val (Tup l)) = Some (option_of t, Bound) /\ movable_expr t = true /\ nth_error l i = Some E /\ is_lref E = true.
Proof. exact get_index_steals_element. Qed.
Print Assumptions C57_get_element_refuted.

Theorem C57_get_by_type : forall E s c k l i, s_rv s = false -> find_type E l = Some i ->
  get_by_type E s (Q c k (Tup l)) = get_index i s (Q c k (Tup l)).
Proof. exact get_by_type_lvalue. Qed.
Print Assumptions C57_get_by_type.

(** get by type of an rvalue option never compiles. *)
Theorem C57_get_by_type_rvalue : forall E s T, s_rv s = true -> get_by_type E s T = None.
Proof. exact get_by_type_rvalue. Qed.
Print Assumptions C57_get_by_type_rvalue.

Theorem C57_get_by_type_refuted : exists E s T i,
  nth_error (elements (q_base T)) i = Some E /\ get_index i s T <> None /\ get_by_type E s T = None.
Proof. exact get_by_type_refuted. Qed.
Print Assumptions C57_get_by_type_refuted.

Theorem C57_variant : forall i s (l : list qty) A, nth_error l i = Some A -> is_ref A = false ->
  variant_get i s l = Some (option_of (access s A), Bound).
Proof. exact variant_exact. Qed.
Print Assumptions C57_variant.

Theorem C57_lookup : forall a,
  lookup_value a = Some (option_of a, match q_kind a with Val => if q_const a then Copied else Moved | _ => Bound end).
Proof. exact lookup_exact. Qed.
Print Assumptions C57_lookup.

Theorem C57_zip : forall l hs,
  map (fun p => regained (fst p) (snd p)) l = map Some hs ->
  zip_of l = Some (option_of (Q false Val (Tup (map snd l))), hs).
Proof. exact zip_exact. Qed.
Print Assumptions C57_zip.

Theorem C57_zip_fails : forall l, In None (map (fun p => regained (fst p) (snd p)) l) -> zip_of l = None.
Proof. exact zip_fails. Qed.
Print Assumptions C57_zip_fails.

Theorem C57_zip_with : forall R,
  zip_with_value R = Some (option_of R, if is_ref R then Bound else if q_const R then Copied else Moved).
Proof. exact zip_with_exact. Qed.
Print Assumptions C57_zip_with.

Theorem C57_unzip : forall s c k l hs,
  map (regained (element_self s (Q c k (Tup l)))) l = map Some hs ->
  unzip_of s (Q c k (Tup l)) = Some (Q false Val (Tup (map option_of l)), hs).
Proof. exact unzip_exact. Qed.
Print Assumptions C57_unzip.

(** flatten at any depth: exactly when it compiles, and its type. *)
Theorem C57_flatten : forall n s T, plain T ->
  flatten_of s (nested n T) = match flat_how s T with Some h => Some (option_of (flat_type s T), h) | None => None end.
Proof. exact flatten_exact. Qed.
Print Assumptions C57_flatten.

(** As documented, except for const lvalues and rvalue references in lvalues. *)
Theorem C57_flatten_documented : forall n s T, plain T ->
  (s_rv s = false -> q_kind T <> RRef /\ (q_kind T = Val -> s_const s = true -> q_const T = true)) ->
  exists h, flatten_of s (nested n T) = Some (option_of (flattened s T), h) /\
  (h = Moved -> may_move s T = true).
Proof. exact flatten_documented. Qed.
Print Assumptions C57_flatten_documented.

Theorem C57_flatten_const : forall n b, (forall U, b <> Opt U) -> flatten_of clv (nested n (Q false Val b)) = None.
Proof. exact flatten_const. Qed.
Print Assumptions C57_flatten_const.

Theorem C57_flatten_rvalue_reference : forall n s c b, (forall U, b <> Opt U) -> s_rv s = false ->
  flatten_of s (nested n (Q c RRef b)) = None.
Proof. exact flatten_rref. Qed.
Print Assumptions C57_flatten_rvalue_reference.

Theorem C57_flatten_refuted : exists n s T, plain T /\ forall h, flatten_of s (nested n T) <> Some (option_of (flattened s T), h).
Proof. exact flatten_differs. Qed.
Print Assumptions C57_flatten_refuted.

(** const option<X> inside an option is not flattened. *)
Theorem C57_flatten_stops_refuted : exists s U,
  flatten_of s (Opt (Q true Val (Opt U))) = Some (option_of (Q true Val (Opt U)), Copied).
Proof. exact flatten_stops. Qed.
Print Assumptions C57_flatten_stops_refuted.

Example C57_ex :
  at_value mrv (Obj 9) (Q false LRef (Obj 0)) = Some (option_of (Q false RRef (Obj 0)), Bound) /\
  get_index 1 clv (Q false Val (Tup [Q false Val (Obj 0); Q false LRef (Obj 1)])) = Some (option_of (Q false LRef (Obj 1)), Bound) /\
  flatten_of mlv (nested 3 (Q false Val (Obj 0))) = Some (option_of (Q false LRef (Obj 0)), Bound) /\
  flatten_of mrv (nested 3 (Q false Val (Obj 0))) = Some (option_of (Q false Val (Obj 0)), Moved) /\
  zip_of [(mrv, Q false Val (Obj 0)); (clv, Q false Val (Obj 1)); (mlv, Q true LRef (Obj 2))] =
    Some (option_of (Q false Val (Tup [Q false Val (Obj 0); Q false Val (Obj 1); Q true LRef (Obj 2)])), [Moved; Copied; Bound]) /\
  unzip_of mlv (Q false Val (Tup [Q false RRef (Obj 0)])) = None.
Proof. repeat split. Qed.

(** C58: swap(a, b).  For types whose rvalues cannot be swapped the overload of the library is never
    enabled, and std::swap is called. *)
Theorem C58_never_enabled : forall mv own T U, ordinary own -> is_lref T = false \/ is_lref U = false ->
  enable_swap mv own T U = false.
Proof. exact enable_swap_values. Qed.
Print Assumptions C58_never_enabled.

Theorem C58_std_swap : forall mv own T, ordinary own -> is_lref T = false ->
  own (Q false LRef (Opt T)) (Q false LRef (Opt T)) = false ->
  swaps mv own (Q false LRef (Opt T)) (Q false LRef (Opt T)) = mv (Opt T) /\
  (mv (Opt T) = true -> std_swap mv (Q false LRef (Opt T)) (Q false LRef (Opt T)) = true /\
                        opt_swap mv own (Q false LRef (Opt T)) (Q false LRef (Opt T)) = false).
Proof. exact swaps_options. Qed.
Print Assumptions C58_std_swap.

(** For option<X&> it is enabled, and makes the call ambiguous. *)
Theorem C58_reference_ambiguous : forall mv own b, (forall U, b <> Opt U) -> mv b = true -> mv (Opt (Q false LRef b)) = true ->
  own (Q false LRef (Opt (Q false LRef b))) (Q false LRef (Opt (Q false LRef b))) = false ->
  enable_swap mv own (Q false LRef b) (Q false LRef b) = true /\
  swaps mv own (Q false LRef (Opt (Q false LRef b))) (Q false LRef (Opt (Q false LRef b))) = false.
Proof. exact swap_reference_ambiguous. Qed.
Print Assumptions C58_reference_ambiguous.

(** Exactly: for option<b&> and option<const b&> it is enabled if lvalues of b can be swapped, whether or not b can
    be moved; and since options of references can be moved, that is when the call is ambiguous. *)
Theorem C58_references : forall mv own b c, (forall U, b <> Opt U) ->
  enable_swap mv own (Q c LRef b) (Q c LRef b) = own (Q c LRef b) (Q c LRef b) || (negb c && mv b) /\
  let o := Q false LRef (Opt (Q c LRef b)) in
  (own o o = false -> swaps mv own o o = xorb (mv (Opt (Q c LRef b))) (own (Q c LRef b) (Q c LRef b) || (negb c && mv b))).
Proof. exact (fun mv own b c H => conj (enable_swap_references mv own b c H) (swaps_references mv own b c H)). Qed.
Print Assumptions C58_references.
Example C58_references_ex :
  let own := fun e f => is_lref e && is_lref f && ty_eqb (q_base e) (Obj 0) in
  enable_swap (fun _ => false) own (Q false LRef (Obj 0)) (Q false LRef (Obj 0)) = true /\
  swaps (fun _ => true) own (Q false LRef (Opt (Q true LRef (Obj 1)))) (Q false LRef (Opt (Q true LRef (Obj 1)))) = true.
Proof. split; reflexivity. Qed.

Example C58_ex : ordinary (fun _ _ => false) /\
  enable_swap (fun _ => true) (fun _ _ => false) (Q false Val (Obj 0)) (Q false Val (Obj 0)) = false /\
  swaps (fun _ => true) (fun _ _ => false) (Q false LRef (Opt (Q false Val (Obj 0)))) (Q false LRef (Opt (Q false Val (Obj 0)))) = true /\
  swaps (fun _ => true) (fun _ _ => false) (Q false LRef (Opt (Q false LRef (Obj 0)))) (Q false LRef (Opt (Q false LRef (Obj 0)))) = false.
Proof. split; [intros e f _|]; repeat split. Qed.
