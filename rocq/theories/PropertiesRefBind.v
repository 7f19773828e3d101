(** Properties of options of references: what they are bound to (C99). *)
From Coq Require Import List Bool Arith.
From Verif Require Import RefBind RefBindSpec RefBindFacts.
Import ListNotations.

(** A program: 0 is int, 1 is double, 2 a class, 3 one derived from it (its base lies at 7), 4 a class with an
    operator int&, 5 is option<int>, 6 the option of references. *)
Definition ex99 : lang := mklang
  (fun n t => if (n =? 3) && (t =? 2) then Some [7] else None)
  (fun n t => if (n =? 4) && (t =? 0) then Some false else None)
  (fun s t => match s with Plain 0 => t =? 1 | Plain 1 => t =? 0 | Wrapper _ 0 => t =? 1 | _ => false end)
  (fun n => n =? 5) 6.
Definition lref (c : bool) (t : nat) : refty := mkref false c t.
Definition rref (c : bool) (t : nat) : refty := mkref true c t.
Definition lvalue (s : oty) : expr := mkexpr true false s.
Definition rvalue (s : oty) : expr := mkexpr false false s.

(** C99: the constructor from a value accepts exactly arguments of the type or derived from it, lvalues for & and
    rvalues for &&, without loss of const, which are not options; and std::reference_wrapper of the type.  The
    option refers to the argument or to the base in it, or to what the wrapper refers to. *)
Theorem C99_value : forall L T e g, bound L Value T e = Some g <->
  is_option L (e_type e) = false /\ ((exists p, fits L T e p /\ g = Part p) \/ (wraps T e /\ g = Referent [])).
Proof. exact value_exact. Qed.
Print Assumptions C99_value.
Theorem C99_assign : forall L T e g, bound L Assign T e = Some g <->
  is_self L (e_type e) = false /\ ((exists p, fits L T e p /\ g = Part p) \/ (wraps T e /\ g = Referent [])).
Proof. exact assign_exact. Qed.
Print Assumptions C99_assign.
Example C99_value_ex :
  bound ex99 Value (lref false 2) (lvalue (Plain 3)) = Some (Part [7]) /\
  bound ex99 Value (lref true 0) (lvalue (Wrapper false 0)) = Some (Referent []) /\
  bound ex99 Value (lref true 0) (rvalue (Plain 0)) = None /\ bound ex99 Value (lref true 0) (lvalue (Plain 1)) = None /\
  bound ex99 Value (rref false 0) (rvalue (Plain 0)) = Some (Part []) /\
  bound ex99 Value (lref false 0) (lvalue (Wrapper true 0)) = None.
Proof. repeat split. Qed.

(** If overload resolution accepts the argument, the body compiles. *)
Theorem C99_compiles : forall L T e,
  (from_value_ctor L T e = true -> bound L Value T e <> None) /\
  (from_value_assign L T e = true -> bound L Assign T e <> None).
Proof. exact enabled_compiles. Qed.
Print Assumptions C99_compiles.

(** Construction from a value and assignment of one never refer to a temporary made by the call. *)
Theorem C99_lasting : forall L w T e g, w = Value \/ w = Assign -> bound L w T e = Some g -> outlives g.
Proof. exact lasting. Qed.
Print Assumptions C99_lasting.

(** For T& they refer to what a reference T& initialised with the argument would refer to; for T&& too, except that
    a std::reference_wrapper, from which T&& cannot be initialised, is accepted. *)
Theorem C99_language : forall L w T e g, w = Value \/ w = Assign -> r_rv T = false -> bound L w T e = Some g ->
  bind L T e = Some g.
Proof. exact like_language. Qed.
Print Assumptions C99_language.
Theorem C99_language_rvalue : forall L w T e g, w = Value \/ w = Assign -> r_rv T = true -> bound L w T e = Some g ->
  bind L T e = match e_type e with Plain _ => Some g | Wrapper _ _ => None end.
Proof. exact like_language_rvalue. Qed.
Print Assumptions C99_language_rvalue.
Theorem C99_language_refuted : exists L T e, r_rv T = true /\ bound L Value T e = Some (Referent []) /\ bind L T e = None.
Proof. exists ex99, (rref false 0), (lvalue (Wrapper false 0)). repeat split. Qed.
Print Assumptions C99_language_refuted.
(** The other way round: a reference could be initialised without a temporary, but the option takes neither a const
    std::reference_wrapper, nor one of a derived class, nor an object with a conversion function, nor an option. *)
Theorem C99_complete_refuted : forall e, In e
  [mkexpr true true (Wrapper false 0); lvalue (Plain 4)] ->
  bound ex99 Value (lref false 0) e = None /\ exists g, bind ex99 (lref false 0) e = Some g /\ outlives g.
Proof. intros e [<-|[<-|[]]]; (split; [reflexivity|]); eexists; (split; [reflexivity|discriminate]). Qed.
Print Assumptions C99_complete_refuted.
Theorem C99_derived_wrapper_refuted : exists L T e, r_rv T = false /\ e_const e = false /\
  bound L Value T e = None /\ bind L T e = Some (Referent [7]).
Proof. exists ex99, (lref false 2), (lvalue (Wrapper false 3)). repeat split. Qed.
Print Assumptions C99_derived_wrapper_refuted.
(** A reference to an option can be assigned but not given to the constructor. *)
Theorem C99_option_refuted : exists L T e,
  bound L Value T e = None /\ bound L Assign T e = Some (Part []) /\ bind L T e = Some (Part []).
Proof. exists ex99, (lref false 5), (lvalue (Plain 5)). repeat split. Qed.
Print Assumptions C99_option_refuted.

(** The constructor for std::in_place, emplace and try_emplace have no constraint: exactly what they are bound to. *)
Theorem C99_in_place : forall L w T e g, w = InPlace \/ w = Emplace -> bound L w T e = Some g <->
  (exists n p, e_type e = Plain n /\ lies L n (r_type T) p /\ keeps (e_const e) (r_const T) /\ g = Part p /\
     (if r_rv T then e_lv e = false else e_lv e = true \/ r_const T = true)) \/
  (exists c n p, e_type e = Wrapper c n /\ lies L n (r_type T) p /\ keeps c (r_const T) /\ g = Referent p) \/
  (exists n c, e_type e = Plain n /\ unrelated L n (r_type T) /\ l_gives L n (r_type T) = Some c /\ r_rv T = false /\
     keeps c (r_const T) /\ g = Given) \/
  (exists n, e_type e = Plain n /\ unrelated L n (r_type T) /\ l_gives L n (r_type T) = None /\
     (r_rv T = true \/ r_const T = true) /\ l_makes L (e_type e) (r_type T) = true /\ g = Temporary).
Proof. exact in_place_exact. Qed.
Print Assumptions C99_in_place.
(** So option<const int&>{std::in_place, d} and emplace(d) with a double d leave a pointer to a temporary that is
    gone when the call returns, although d lives on. *)
Theorem C99_in_place_refuted : exists L T e, e_lv e = true /\ r_rv T = false /\
  bound L InPlace T e = Some Temporary /\ bound L Emplace T e = Some Temporary /\ bound L Value T e = None.
Proof. exists ex99, (lref true 0), (lvalue (Plain 1)). repeat split. Qed.
Print Assumptions C99_in_place_refuted.

(** The result of a function is bound like the argument of std::in_place; a new object only if it is a
    std::reference_wrapper.  With the function's own type it is what was returned. *)
Theorem C99_invoke : forall L pr T e g, bound L (Invoke pr) T e = Some g <->
  bound L InPlace T e = Some g /\ (pr = true -> e_const e = false /\ exists c n, e_type e = Wrapper c n).
Proof. exact invoke_exact. Qed.
Print Assumptions C99_invoke.
Theorem C99_invoke_same : forall L T e, e_type e = Plain (r_type T) -> r_const T = e_const e -> e_lv e = negb (r_rv T) ->
  bound L (Invoke false) T e = Some (Part []).
Proof. exact invoke_same. Qed.
Print Assumptions C99_invoke_same.
Example C99_invoke_ex :
  bound ex99 (Invoke true) (lref true 0) (rvalue (Plain 1)) = None /\
  bound ex99 (Invoke true) (lref false 2) (rvalue (Wrapper false 3)) = Some (Referent [7]) /\
  bound ex99 (Invoke false) (lref true 0) (lvalue (Plain 1)) = Some Temporary.
Proof. repeat split. Qed.
