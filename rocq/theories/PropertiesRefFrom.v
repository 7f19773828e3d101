(** Properties of options of references that are made from other options (C99). *)
From Coq Require Import List Bool Arith.
From Verif Require Import RefBind RefBindSpec RefBindFacts RefFrom RefFromSpec RefFromFacts PropertiesRefBind.
Import ListNotations.

(** C99: an option<T&> takes options of X& where X is T or derived from it, without loss of const, and an option<T&&>
    rvalues that are options of X or X&&; both take options of a std::reference_wrapper.  They refer to what is
    contained, to its base, or to what the wrapper refers to. *)
Theorem C99_from_option : forall L T o g, from_option L T o = Some g <->
  ~ same_option T o /\
  ((kin T o /\ (r_rv T = true -> o_rvalue o = true) /\ exists p, holds_a L T o p /\ g = Part p) \/
   (holds_wrapper T o /\ g = Referent [])).
Proof. exact from_exact. Qed.
Print Assumptions C99_from_option.
Theorem C99_from_option_lasting : forall L T o g, from_option L T o = Some g -> outlives g.
Proof. exact from_lasting. Qed.
Print Assumptions C99_from_option_lasting.
(** An option<T&> refers to nothing inside the other option. *)
Theorem C99_from_option_outside : forall L T o p, r_rv T = false -> from_option L T o = Some (Part p) -> o_held o = Left.
Proof. exact from_outside. Qed.
Print Assumptions C99_from_option_outside.
(** 0 is int, 2 a class, 3 one derived from it; 8 a class like std::any; 10 to 14 are types of options. *)
Definition any99 : lang := mklang (l_base ex99) (l_gives ex99)
  (fun s t => if t =? 8 then match s with Plain n => negb (n =? 8) | Wrapper _ _ => true end else l_makes ex99 s t)
  (fun n => (n =? 5) || (10 <=? n)) 6.
Example C99_from_option_ex :
  from_option any99 (lref true 2) (mkother Left false (Plain 3) false 10 true) = Some (Part [7]) /\
  from_option any99 (lref false 2) (mkother Left true (Plain 3) false 11 true) = None /\
  from_option any99 (rref false 0) (mkother Right false (Plain 0) true 12 true) = None /\
  from_option any99 (rref true 0) (mkother Right false (Plain 0) true 12 true) = Some (Part []) /\
  from_option any99 (lref false 0) (mkother Object false (Wrapper false 0) false 13 true) = Some (Referent []) /\
  from_option any99 (lref true 0) (mkother Object false (Plain 0) false 14 true) = None.
Proof. repeat split. Qed.

(** An option<T&&> refers to the inside of an rvalue option<T>. *)
Theorem C99_from_option_outside_refuted : exists L T o p, o_held o = Object /\ from_option L T o = Some (Part p).
Proof. exists any99, (rref false 0), (mkother Object false (Plain 0) true 14 true), []. repeat split. Qed.
Print Assumptions C99_from_option_outside_refuted.
(** The constraints accept lvalues for which the constructor of option<T&&> does not compile: exactly which. *)
Theorem C99_from_option_compiles : forall L T o, option_like L T o = true ->
  (from_option L T o = None <-> r_rv T = true /\ o_rvalue o = false /\ exists n, o_type o = Plain n).
Proof. exact like_compiles. Qed.
Print Assumptions C99_from_option_compiles.
Theorem C99_from_option_compiles_refuted : exists L T o, option_like L T o = true /\ from_option L T o = None.
Proof. exists any99, (rref false 0), (mkother Object false (Plain 0) false 14 true). repeat split. Qed.
Print Assumptions C99_from_option_compiles_refuted.

(** Assignment of an rvalue is like construction; assignment of an lvalue does not compile, or leaves a pointer to a
    temporary. *)
Theorem C99_assign_option_rvalue : forall L T o, o_rvalue o = true -> assign_option L T o = from_option L T o.
Proof. exact assign_rvalue. Qed.
Print Assumptions C99_assign_option_rvalue.
Theorem C99_assign_option_lvalue : forall L T o g, o_rvalue o = false -> assign_option L T o = Some g -> g = Temporary.
Proof. exact assign_lvalue. Qed.
Print Assumptions C99_assign_option_lvalue.
Theorem C99_assign_option_exact : forall L T o g, o_rvalue o = false ->
  (assign_option L T o = Some g <-> g = Temporary /\ option_like L T o = true /\ remade L o /\
    exists g', bind L T (mkexpr false false (Plain (o_number o))) = Some g').
Proof. exact assign_lvalue_exact. Qed.
Print Assumptions C99_assign_option_exact.
Theorem C99_assign_option_fails : forall L T o, o_rvalue o = false -> l_makes L (Plain (o_number o)) (r_type T) = false ->
  unrelated L (o_number o) (r_type T) -> l_gives L (o_number o) (r_type T) = None -> assign_option L T o = None.
Proof. exact assign_lvalue_fails. Qed.
Print Assumptions C99_assign_option_fails.
(** option<const int&> and option<int&>, which can be constructed; option<const any&> and option<any&>. *)
Theorem C99_assign_option_refuted : exists L T o, o_rvalue o = false /\ option_like L T o = true /\
  from_option L T o = Some (Part []) /\ assign_option L T o = None.
Proof. exists any99, (lref true 0), (mkother Left false (Plain 0) false 10 true). repeat split. Qed.
Print Assumptions C99_assign_option_refuted.
Theorem C99_assign_option_dangles_refuted : exists L T o, o_rvalue o = false /\
  from_option L T o = Some (Part []) /\ assign_option L T o = Some Temporary.
Proof. exists any99, (lref true 8), (mkother Left false (Plain 8) false 11 true). repeat split. Qed.
Print Assumptions C99_assign_option_dangles_refuted.
Example C99_assign_option_ex :
  assign_option any99 (lref true 2) (mkother Left false (Plain 3) true 10 true) = Some (Part [7]) /\
  l_makes any99 (Plain 10) 0 = false /\ unrelated any99 10 0 /\ l_gives any99 10 0 = None.
Proof. repeat split. discriminate. Qed.
