(** impl::invoke, the library's own std::invoke: which overload a call chooses and which expression that returns.

    Models: include/opt/option.hpp 613-647.  The rules for choosing are those of [over.match.best]: a parameter
    taken by value or by forwarding reference is an exact match; binding a reference_wrapper parameter to an object
    of a derived class is a conversion; between equal conversions the more specialised template wins
    ([temp.func.order]). *)
From Coq Require Import Bool List Arith.
Import ListNotations.

(** Types without const, volatile and references. *)
Inductive ity : Type :=
  | Named (n : nat)
  | Wrapper (t : ity).          (* std::reference_wrapper<t> *)

Fixpoint same_ity (a b : ity) : bool :=
  match a, b with
  | Named n, Named m => n =? m
  | Wrapper a, Wrapper b => same_ity a b
  | _, _ => false
  end.

(** What is called: a pointer to a member function or to a data member of a class, or anything else. *)
Inductive callee : Type :=
  | Function
  | MemberFunction (c : ity)
  | DataMember (c : ity).

(** The object that a member is taken of. *)
Inductive object : Type :=
  | Itself (i : nat)         (* static_cast<First&&>(first) *)
  | Pointee (i : nat)        (* *static_cast<First&&>(first) *)
  | Referred (i : nat).      (* first.get() *)

(** The expression that is evaluated; arguments are numbered from 0 and forwarded. *)
Inductive expression : Type :=
  | Call (args : list nat)                  (* fn(args...) *)
  | CallMember (o : object) (args : list nat)  (* (o.*fn)(args...) *)
  | Member (o : object).                    (* o.*fn *)

(** The seven overloads in the order of the file. *)
Inductive overload : Type := Generic | FunOf | FunOfPointer | DataOf | DataOfPointer | FunOfWrapper | DataOfWrapper.
Definition overloads : list overload := [Generic; FunOf; FunOfPointer; DataOf; DataOfPointer; FunOfWrapper; DataOfWrapper].

Definition same_overload (a b : overload) : bool :=
  match a, b with
  | Generic, Generic | FunOf, FunOf | FunOfPointer, FunOfPointer | DataOf, DataOf | DataOfPointer, DataOfPointer
  | FunOfWrapper, FunOfWrapper | DataOfWrapper, DataOfWrapper => true
  | _, _ => false
  end.

Section Invoke.

(** The compiler's answers: is_base_of, and which reference_wrapper a class is derived from, if exactly one. *)
Variable base_of : ity -> ity -> bool.
Variable wrapper_base : ity -> option ity.

(** std::is_same_v<C, remove_cvref<First>> || std::is_base_of_v<C, remove_cvref<First>> *)
Definition belongs (c first : ity) : bool := same_ity c first || base_of c first.

(** The reference_wrapper<First> that the parameter is deduced to, and whether the argument must be converted. *)
Definition deduced (first : ity) : option (ity * bool) :=
  match first with
  | Wrapper t => Some (t, false)
  | _ => option_map (fun t => (t, true)) (wrapper_base first)
  end.

(** 614-647: deduction and enable_if. *)
Definition viable (o : overload) (f : callee) (args : list ity) : bool :=
  match o, f, args with
  | Generic, _, _ => true
  | FunOf, MemberFunction c, first :: _ => belongs c first
  | FunOfPointer, MemberFunction c, first :: _ => negb (belongs c first)
  | DataOf, DataMember c, [first] => belongs c first
  | DataOfPointer, DataMember c, [first] => negb (belongs c first)
  | FunOfWrapper, MemberFunction _, first :: _ => if deduced first then true else false
  | DataOfWrapper, DataMember _, [first] => if deduced first then true else false
  | _, _, _ => false
  end.

(** Whether the first argument must be converted for the overload. *)
Definition converts (o : overload) (args : list ity) : bool :=
  match o, args with
  | (FunOfWrapper | DataOfWrapper), first :: _ => match deduced first with Some (_, c) => c | None => false end
  | _, _ => false
  end.

(** More specialised: T C::* than T&&; reference_wrapper<First> than First&&. *)
Definition more_special (a b : overload) : bool :=
  match a, b with
  | Generic, _ => false
  | _, Generic => true
  | FunOfWrapper, (FunOf | FunOfPointer) | DataOfWrapper, (DataOf | DataOfPointer) => true
  | _, _ => false
  end.

Definition better (args : list ity) (a b : overload) : bool :=
  match converts a args, converts b args with
  | false, true => true
  | true, false => false
  | _, _ => more_special a b
  end.

(** The overload better than all other viable ones; none if there is no such. *)
Definition chosen (f : callee) (args : list ity) : option overload :=
  let vs := filter (fun o => viable o f args) overloads in
  find (fun o => forallb (fun p => same_overload o p || better args o p) vs) vs.

(** The bodies. *)
Definition body (o : overload) (n : nat) : expression :=
  let rest := seq 1 (n - 1) in
  match o with
  | Generic => Call (seq 0 n)
  | FunOf => CallMember (Itself 0) rest
  | FunOfPointer => CallMember (Pointee 0) rest
  | DataOf => Member (Itself 0)
  | DataOfPointer => Member (Pointee 0)
  | FunOfWrapper => CallMember (Referred 0) rest
  | DataOfWrapper => Member (Referred 0)
  end.

Definition invoke (f : callee) (args : list ity) : option expression :=
  option_map (fun o => body o (length args)) (chosen f args).

End Invoke.
