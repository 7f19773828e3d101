(** Property C96. *)
From Coq Require Import List Bool Arith Lia.
From Verif Require Import Borrow BorrowSpec BorrowFacts.
Import ListNotations.

(** A variable of type option<tuple<int, int&>> whose second element refers to variable 1, and an int. *)
Definition two_variables : memory := [OptVal (Some (Pack [Atom; Link (1, [])])); Atom].

(** Every reference in the result of a plain function lies in a marked argument or was reachable through
    a reference that an argument held. *)
Theorem C96_accounted : forall f m args m' x q,
  plain f = true -> result f m args = Some (m', x) -> In q (refs x) -> accounted f m args q.
Proof. exact plain_accounted. Qed.
Print Assumptions C96_accounted.

Example C96_accounted_ex :
  result (GetI 0) two_variables [((0, []), false)] = Some (two_variables, New (OptRef (Some (0, [0; 0])))) /\
  result (GetI 1) two_variables [((0, []), false)] = Some (two_variables, New (OptRef (Some (1, [])))).
Proof. split; reflexivity. Qed.

(** opt::at, the lookups that find something, and opt::get<i> refer to the element, or to what it refers to if it is a
    reference. *)
Theorem C96_elements : forall m p rv l i, read m p = Some (Pack l) ->
  let e := match nth_error l i with Some (Link q) => Some q | Some _ => Some (fst p, snd p ++ [i]) | None => None end in
  result (At i) m [(p, rv)] = Some (m, New (OptRef e)) /\
  (forall k a, nth_error l i <> None -> result (Lookup (Some i)) m [(p, rv); (k, a)] = Some (m, New (OptRef e))) /\
  (forall o rv', nth_error l i <> None -> get_place m o = Some p -> result (GetI i) m [(o, rv')] = Some (m, New (OptRef e))).
Proof. exact elements_at. Qed.
Print Assumptions C96_elements.

(** If no argument holds a reference, every reference in the result lies in a marked argument. *)
Theorem C96_inside : forall f m args m' x q,
  plain f = true ->
  (forall i p rv o, nth_error args i = Some (p, rv) -> read m p = Some o -> held o = []) ->
  result f m args = Some (m', x) -> In q (refs x) ->
  exists i p rv, nth_error args i = Some (p, rv) /\ annotated f i = true /\ within p q.
Proof. exact plain_inside. Qed.
Print Assumptions C96_inside.

Example C96_inside_ex :
  (forall i p rv o, nth_error [((0, []), true)] i = Some (p, rv) ->
     read [OptVal (Some Atom)] p = Some o -> held o = []) /\
  result Get [OptVal (Some Atom)] [((0, []), true)] = Some ([OptVal (Some Atom)], Ref (0, [0]) true).
Proof.
  split; [|reflexivity]. intros [|[|i]] p rv o H R; try discriminate H.
  injection H as <- <-. injection R as <-. reflexivity.
Qed.

(** Without that condition the mark says too much: get() of an option<int&> that is a temporary gives the
    variable, and the compiler warns. *)
Theorem C96_inside_refuted : exists f e m m' q,
  plain f = true /\ e = Call f [Make (OptRef (Some (0, [])))] /\ settled 1 m /\
  eval e m = Some (m', Ref q true) /\ ~ dangling 1 q /\ warned e = true.
Proof.
  exists Get, (Call Get [Make (OptRef (Some (0, [])))]), [Atom], [Atom; OptRef (Some (0, []))], (0, []).
  repeat split; try reflexivity.
  - intros o [<-|[]] q [].
  - unfold dangling. cbn. lia.
Qed.
Print Assumptions C96_inside_refuted.

(** A warning is right: if the marked argument is a temporary and no argument holds a reference, every
    reference in the result dangles.  io has two marked parameters. *)
Theorem C96_warning : forall n f m p rv args m' x q,
  plain f = true -> (forall i, annotated f i = true -> i = 0) ->
  (forall i s rs o, nth_error ((p, rv) :: args) i = Some (s, rs) -> read m s = Some o -> held o = []) ->
  dangling n p -> result f m ((p, rv) :: args) = Some (m', x) -> In q (refs x) -> dangling n q.
Proof. exact warning_right. Qed.
Print Assumptions C96_warning.

Example C96_warning_ex :
  eval (Call (At 1) [Make (Pack [Atom; Atom])]) [Atom] =
    Some ([Atom; Pack [Atom; Atom]], New (OptRef (Some (1, [1])))) /\
  warned (Call (At 1) [Make (Pack [Atom; Atom])]) = true /\ dangling 1 (1, [1]).
Proof. repeat split. unfold dangling. cbn. lia. Qed.

(** Expressions of any depth: without a marked argument that is a temporary, nothing dangles. *)
Theorem C96_quiet : forall n e m m' x q,
  quiet n e = true -> settled n m -> eval e m = Some (m', x) -> In q (refs x) -> ~ dangling n q.
Proof. exact quiet_no_dangling. Qed.
Print Assumptions C96_quiet.

Example C96_quiet_ex :
  quiet 2 (Call (Filter true) [Call (GetI 1) [Var 0]]) = true /\ settled 2 two_variables /\
  eval (Call (Filter true) [Call (GetI 1) [Var 0]]) two_variables =
    Some (two_variables ++ [OptRef (Some (1, []))], New (OptRef (Some (1, [])))) /\
  quiet 2 (Call Value [Call (Filter true) [Var 0]]) = false /\ warned (Call Value [Call (Filter true) [Var 0]]) = true.
Proof.
  split; [reflexivity|]. split; [|repeat split].
  intros o [<-|[<-|[]]] q; cbn; [intros [<-|[]]; unfold dangling; cbn; lia | intros []].
Qed.

(** The warning suffices where the arguments that are not marked are variables. *)
Theorem C96_no_warning : forall n e m m' x q,
  traced n e = true -> warned e = false -> settled n m -> eval e m = Some (m', x) -> In q (refs x) ->
  ~ dangling n q.
Proof. exact no_warning_no_dangling. Qed.
Print Assumptions C96_no_warning.

Example C96_no_warning_ex :
  traced 2 (Call (GetI 0) [Call (Emplace false) [Var 0; Var 1]]) = true /\
  warned (Call (GetI 0) [Call (Emplace false) [Var 0; Var 1]]) = false /\
  eval (Call Begin [Call (Emplace false) [Var 0; Var 1]]) [OptVal None; OptVal (Some Atom)] =
    Some ([OptVal (Some (OptVal (Some Atom))); OptVal (Some Atom)], New (Link (0, [0; 0]))).
Proof. repeat split. Qed.

(** It does not suffice elsewhere: filter copies an option of a reference into a temporary, and its *this
    is not marked. *)
Theorem C96_no_warning_refuted : exists e m m' x q,
  e = Call (Filter true) [Call (At 0) [Make (Pack [Atom])]] /\
  warned e = false /\ settled 0 m /\ eval e m = Some (m', x) /\ In q (refs x) /\ dangling 0 q.
Proof.
  exists (Call (Filter true) [Call (At 0) [Make (Pack [Atom])]]), [],
    [Pack [Atom]; OptRef (Some (0, [0]))], (New (OptRef (Some (0, [0])))), (0, [0]).
  repeat split; try reflexivity.
  - intros o [].
  - now left.
  - unfold dangling. cbn. lia.
Qed.
Print Assumptions C96_no_warning_refuted.

(** The functions that give a reference into an argument that is not marked: get_unchecked, inspect,
    operator|=, flatten, value_or, value_or_construct, emplace and try_emplace with a reference type, and
    map and zip_with with a function that returns its argument or a part of it.  Each dangles without a warning. *)
Definition part_of (p : place) : outcome := Ref (inner p 0) true.
Definition first_of (l : list place) : outcome := match l with p :: _ => Ref p true | [] => New Atom end.

Theorem C96_unmarked_refuted :
  forall e, In e
    [ Call Unchecked [Make (OptVal (Some Atom))];
      Call Inspect [Make (OptVal (Some Atom))];
      Call OrAssign [Make (OptVal (Some Atom)); Var 0];
      Call Flatten [Call Inspect [Make (OptVal (Some (OptVal (Some Atom))))]];
      Call (ValueOr true) [Var 1; Make Atom];
      Call (ValueOrConstruct true) [Var 1; Make Atom];
      Call (Emplace true) [Var 1; Make Atom];
      Call (TryEmplace true) [Var 1; Make Atom];
      Call (Map part_of) [Make (OptVal (Some (Pack [Atom])))];
      Call (ZipWith first_of) [Make (OptVal (Some Atom))] ] ->
  warned e = false /\
  exists m' x q, eval e [OptVal None; OptRef None] = Some (m', x) /\ In q (refs x) /\ dangling 2 q.
Proof.
  intros e H. repeat destruct H as [<-|H]; [..|destruct H].
  all: split; [reflexivity|]; do 2 eexists; eexists; split; [reflexivity|]; split; [left; reflexivity|];
    unfold dangling; cbn; lia.
Qed.
Print Assumptions C96_unmarked_refuted.
