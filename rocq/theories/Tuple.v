(** Tuples as classes, and the variadic functions zip, zip_with and unzip.

    Models: include/opt/option.hpp 3344-3354 (zip), 3356-3371 (zip_with), 3416-3439 (unzip),
    1300-1327 (option_traits of std::tuple: the levels of the first element that has most).

    A tuple of n classes is a right-nested product, so the functions are recursive over the list of
    elements.  The standard leaves the order in which std::tuple constructs its elements to the
    implementation; [tail_first] is a parameter.  When an element throws, those already constructed are
    destroyed. *)
From Coq Require Import NArith Bool List.
From Verif Require Import Outcome Words Lifetime Api.
Import ListNotations.
Open Scope N_scope.

(** How the standard library implements tuples: which end is constructed first, and whether the
    assignment of trivially assignable elements is itself trivial. *)
Record shape : Type := mkshape { tail_first : bool; triv_assign : bool }.

(** std::tuple<>. *)
Definition unit_cls {W} : cls W := {|
  raw := unit;
  init := unit;
  td := true; tcc := true; tca := true; tmc := true; tma := true; scalar := false;
  ctor := fun _ r w => Ret (r, w);
  cctor := fun _ r w => Ret (r, w);
  mctor := fun r sw => Ret (r, sw);
  asgn := fun _ r w => Ret (r, w);
  cassign := fun _ r w => Ret (r, w);
  massign := fun r sw => Ret (r, sw);
  self_cassign := fun r w => Ret (r, w);
  self_massign := fun r w => Ret (r, w);
  swp := fun r sw => Ret (r, sw);
  self_swp := fun r w => Ret (r, w);
  dtor := fun r w => Ret (r, w);
  lmax := 0;
  lget := fun _ => 0;
  lset := fun _ r => r
|}.

Section Both.
Context {A B X : Type}.

(** Two actions, one on each part. *)
Definition on_fst (f : A -> X -> out (A * X)) (r : A * B) (w : X) : out ((A * B) * X) :=
  match f (fst r) w with
  | Ret (a, w') => Ret ((a, snd r), w')
  | Exn (a, w') => Exn ((a, snd r), w')
  | Abort => Abort
  | Undef => Undef
  end.
Definition on_snd (g : B -> X -> out (B * X)) (r : A * B) (w : X) : out ((A * B) * X) :=
  match g (snd r) w with
  | Ret (b, w') => Ret ((fst r, b), w')
  | Exn (b, w') => Exn ((fst r, b), w')
  | Abort => Abort
  | Undef => Undef
  end.

(** [m], then [k]. *)
Definition then_ {Y Z} (m : out (Y * Z)) (k : Y -> Z -> out (Y * Z)) : out (Y * Z) :=
  match m with
  | Ret (y, z) => k y z
  | m => m
  end.

(** Construction of [k] after something was constructed: if it throws, [undo] destroys the latter. *)
Definition or_undo {Y Z} (m : out (Y * Z)) (undo : Y -> Z -> out (Y * Z)) : out (Y * Z) :=
  match m with
  | Exn (y, z) =>
      match nothrow (undo y z) with
      | Ret p => Exn p
      | Exn p => Exn p
      | Abort => Abort
      | Undef => Undef
      end
  | m => m
  end.

(** Construction of both parts in storage. *)
Definition build2 (tail_first : bool) (f df : A -> X -> out (A * X)) (g dg : B -> X -> out (B * X))
  (r : A * B) (w : X) : out ((A * B) * X) :=
  if tail_first then then_ (on_snd g r w) (fun r w => or_undo (on_fst f r w) (on_snd dg))
  else then_ (on_fst f r w) (fun r w => or_undo (on_snd g r w) (on_fst df)).

(** Assignment: head first, no undoing. *)
Definition each2 (f : A -> X -> out (A * X)) (g : B -> X -> out (B * X)) (r : A * B) (w : X) : out ((A * B) * X) :=
  then_ (on_fst f r w) (on_snd g).

(** Destruction in reverse order; an exception ends the program. *)
Definition drop2 (tail_first : bool) (f : A -> X -> out (A * X)) (g : B -> X -> out (B * X)) (r : A * B) (w : X)
  : out ((A * B) * X) :=
  if tail_first then then_ (nothrow (on_fst f r w)) (fun r w => nothrow (on_snd g r w))
  else then_ (nothrow (on_snd g r w)) (fun r w => nothrow (on_fst f r w)).
End Both.

Section World.
Context {A B W : Type}.
(** An operation that uses one part of a pair kept in the world. *)
Definition use_fst {Y} (f : Y -> A * W -> out (Y * (A * W))) (y : Y) (sw : (A * B) * W) : out (Y * ((A * B) * W)) :=
  match f y (fst (fst sw), snd sw) with
  | Ret (y', (a, w')) => Ret (y', ((a, snd (fst sw)), w'))
  | Exn (y', (a, w')) => Exn (y', ((a, snd (fst sw)), w'))
  | Abort => Abort
  | Undef => Undef
  end.
Definition use_snd {Y} (f : Y -> B * W -> out (Y * (B * W))) (y : Y) (sw : (A * B) * W) : out (Y * ((A * B) * W)) :=
  match f y (snd (fst sw), snd sw) with
  | Ret (y', (b, w')) => Ret (y', ((fst (fst sw), b), w'))
  | Exn (y', (b, w')) => Exn (y', ((fst (fst sw), b), w'))
  | Abort => Abort
  | Undef => Undef
  end.
End World.

Section Cons.
Context {W : Type} (sh : shape) (C D : cls W).

(** 1315-1319 with index_of_max 802: the head, unless the tail has strictly more levels. *)
Definition head_carries : bool := lmax D <=? lmax C.

(** A head of class C and a tail of class D. *)
Definition cons_cls : cls W := {|
  raw := raw C * raw D;
  init := init C * init D;
  td := td C && td D;
  tcc := tcc C && tcc D;
  tca := triv_assign sh && (tca C && tca D);
  tmc := tmc C && tmc D;
  tma := triv_assign sh && (tma C && tma D);
  scalar := false;
  ctor := fun i => build2 (tail_first sh) (ctor C (fst i)) (dtor C) (ctor D (snd i)) (dtor D);
  cctor := fun s => build2 (tail_first sh) (cctor C (fst s)) (dtor C) (cctor D (snd s)) (dtor D);
  mctor := build2 (tail_first sh) (use_fst (mctor C)) (lift (dtor C)) (use_snd (mctor D)) (lift (dtor D));
  asgn := fun i => each2 (asgn C (fst i)) (asgn D (snd i));
  cassign := fun s => each2 (cassign C (fst s)) (cassign D (snd s));
  massign := each2 (use_fst (massign C)) (use_snd (massign D));
  self_cassign := each2 (self_cassign C) (self_cassign D);
  self_massign := each2 (self_massign C) (self_massign D);
  swp := each2 (use_fst (swp C)) (use_snd (swp D));
  self_swp := each2 (self_swp C) (self_swp D);
  dtor := drop2 (tail_first sh) (dtor C) (dtor D);
  lmax := if head_carries then lmax C else lmax D;
  lget := fun r => if head_carries then lget C (fst r) else lget D (snd r);
  lset := fun l r => if head_carries then (lset C l (fst r), snd r) else (fst r, lset D l (snd r))
|}.
End Cons.

Fixpoint tuple_cls {W} (sh : shape) (Cs : list (cls W)) : cls W :=
  match Cs with
  | [] => unit_cls
  | C :: Cs => cons_cls sh C (tuple_cls sh Cs)
  end.

(** * zip, zip_with *)
Section Zip.
Context {W : Type}.

(** The operands. *)
Fixpoint cells (Cs : list (cls W)) : Type :=
  match Cs with
  | [] => unit
  | C :: Cs => (cell C * cells Cs)%type
  end.
Fixpoint raws (Cs : list (cls W)) : Type :=
  match Cs with
  | [] => unit
  | C :: Cs => (raw C * raws Cs)%type
  end.

(** 3349, 3363: options.has_value() && ... *)
Fixpoint all_has (Cs : list (cls W)) : cells Cs -> res bool :=
  match Cs return cells Cs -> res bool with
  | [] => fun _ => Ok true
  | C :: Cs => fun cs =>
      match o_has C (fst cs) with
      | Ok true => all_has Cs (snd cs)
      | r => r
      end
  end.

(** static_cast<Options&&>(options).get()...: all checks, then [k] uses the contained objects. *)
Fixpoint with_gets (Cs : list (cls W)) {A} : (A -> raws Cs * W -> out (A * (raws Cs * W))) ->
    A -> cells Cs * W -> out (A * (cells Cs * W)) :=
  match Cs return (A -> raws Cs * W -> out (A * (raws Cs * W))) -> A -> cells Cs * W -> out (A * (cells Cs * W)) with
  | [] => fun k => k
  | C :: Cs => fun k a cw =>
      match cw with
      | ((c, cs), w) =>
          check (o_has C c) (fun h =>
            if h then
              if c_alive c then
                match with_gets Cs (fun (x : A * raw C) (sw : raws Cs * W) =>
                        match k (fst x) ((snd x, fst sw), snd sw) with
                        | Ret (a', ((r, rs), w')) => Ret ((a', r), (rs, w'))
                        | Exn (a', ((r, rs), w')) => Exn ((a', r), (rs, w'))
                        | Abort => Abort
                        | Undef => Undef
                        end) (a, c_raw c) (cs, w) with
                | Ret ((a', r), (cs', w')) => Ret (a', ((mkcell r (c_flag c) true, cs'), w'))
                | Exn ((a', r), (cs', w')) => Exn (a', ((mkcell r (c_flag c) true, cs'), w'))
                | Abort => Abort
                | Undef => Undef
                end
              else Undef
            else Abort)
      end
  end.

(** The elements of a tuple initialised from references to the contained objects, each lvalue or
    rvalue. *)
Fixpoint tuple_from (sh : shape) (Cs : list (cls W)) (ps : list pass)
  : raw (tuple_cls sh Cs) -> raws Cs * W -> out (raw (tuple_cls sh Cs) * (raws Cs * W)) :=
  match Cs return raw (tuple_cls sh Cs) -> raws Cs * W -> out (raw (tuple_cls sh Cs) * (raws Cs * W)) with
  | [] => fun t sw => Ret (t, sw)
  | C :: Cs =>
      build2 (tail_first sh)
        (use_fst (from_value C (hd ByCopy ps))) (lift (dtor C))
        (use_snd (tuple_from sh Cs (tl ps))) (lift (dtor (tuple_cls sh Cs)))
  end.

(** A temporary object, moved into an option and destroyed: opt::option{x} for a prvalue x of class D
    made by [mk] in the storage [t]. *)
Definition via_temporary {X} (D : cls W) (mk : raw D -> X * W -> out (raw D * (X * W))) (t : raw D) (d : cell D)
  (xw : X * W) : out (cell D * (X * W)) :=
  match mk t xw with
  | Ret (t', (x, w)) =>
      match o_build D (mctor D) d (t', w) with
      | Ret (d', (t'', w')) =>
          match nothrow (dtor D t'' w') with
          | Ret (_, w'') => Ret (d', (x, w''))
          | Exn _ => Abort
          | Abort => Abort
          | Undef => Undef
          end
      | Exn (d', (t'', w')) =>
          match nothrow (dtor D t'' w') with
          | Ret (_, w'') => Exn (d', (x, w''))
          | Exn _ => Abort
          | Abort => Abort
          | Undef => Undef
          end
      | Abort => Abort
      | Undef => Undef
      end
  | Exn (_, xw') => Exn (d, xw')
  | Abort => Abort
  | Undef => Undef
  end.

(** zip 3344. *)
Definition a_zip (sh : shape) (Cs : list (cls W)) (ps : list pass) (t : raw (tuple_cls sh Cs))
  (d : cell (tuple_cls sh Cs)) (cw : cells Cs * W) : out (cell (tuple_cls sh Cs) * (cells Cs * W)) :=
  check (all_has Cs (fst cw)) (fun h =>
    if h then via_temporary (tuple_cls sh Cs) (with_gets Cs (tuple_from sh Cs ps)) t d cw
    else o_none (tuple_cls sh Cs) d cw).

(** zip_with 3356 with a function that returns an object of class D. *)
Definition a_zip_with (Cs : list (cls W)) (D : cls W) (f : raw D -> raws Cs * W -> out (raw D * (raws Cs * W)))
  (t : raw D) (d : cell D) (cw : cells Cs * W) : out (cell D * (cells Cs * W)) :=
  check (all_has Cs (fst cw)) (fun h =>
    if h then via_temporary D (with_gets Cs f) t d cw else o_none D d cw).

(** zip_with with a function that returns void. *)
Definition a_zip_do (Cs : list (cls W)) (f : raws Cs * W -> out (raws Cs * W)) (cw : cells Cs * W) : out (cells Cs * W) :=
  check (all_has Cs (fst cw)) (fun h =>
    if h then
      match with_gets Cs (fun (_ : unit) sw => match f sw with
                                               | Ret x => Ret (tt, x)
                                               | Exn x => Exn (tt, x)
                                               | Abort => Abort
                                               | Undef => Undef
                                               end) tt cw with
      | Ret (_, x) => Ret x
      | Exn (_, x) => Exn x
      | Abort => Abort
      | Undef => Undef
      end
    else Ret cw).

(** * unzip *)

(** option<T_i>{std::get<i>(static_cast<Self&&>(self).get())}..., left to right, each with the check
    of get(); if one throws, those before are destroyed in reverse order.  The storage is a tuple of
    options.  [Cs] are the elements still to do; [acc] calls self.get() and takes the part that they
    make up. *)
Definition opts (Cs : list (cls W)) : list (cls W) := map opt_cls Cs.

Definition access {Z} (R : Type) : Type :=
  forall A, (A -> R * W -> out (A * (R * W))) -> A -> Z * W -> out (A * (Z * W)).

Fixpoint split_from {Z} (sh : shape) (Cs : list (cls W)) (p : pass) : access (Z := Z) (raw (tuple_cls sh Cs)) ->
    raw (tuple_cls sh (opts Cs)) -> Z * W -> out (raw (tuple_cls sh (opts Cs)) * (Z * W)) :=
  match Cs return access (raw (tuple_cls sh Cs)) ->
    raw (tuple_cls sh (opts Cs)) -> Z * W -> out (raw (tuple_cls sh (opts Cs)) * (Z * W)) with
  | [] => fun _ t zw => Ret (t, zw)
  | C :: Cs => fun acc =>
      build2 false
        (acc (cell C) (use_fst (o_build C (from_value C p)))) (lift (o_dtor C))
        (split_from sh Cs p (fun A f => acc A (use_snd f))) (lift (dtor (tuple_cls sh (opts Cs))))
  end.

(** option<T_i>{}... *)
Fixpoint split_none (sh : shape) (Cs : list (cls W))
  : raw (tuple_cls sh (opts Cs)) -> W -> out (raw (tuple_cls sh (opts Cs)) * W) :=
  match Cs return raw (tuple_cls sh (opts Cs)) -> W -> out (raw (tuple_cls sh (opts Cs)) * W) with
  | [] => fun t w => Ret (t, w)
  | C :: Cs =>
      build2 false (fun c w => o_none C c w) (o_dtor C) (split_none sh Cs) (dtor (tuple_cls sh (opts Cs)))
  end.

(** A prvalue made in the storage [t], from which the result is move-constructed in [r]. *)
Definition moved_temporary {X} (D : cls W) (mk : raw D -> X * W -> out (raw D * (X * W))) (t r : raw D) (xw : X * W)
  : out (raw D * (X * W)) :=
  match mk t xw with
  | Ret (t', (x, w)) =>
      match mctor D r (t', w) with
      | Ret (r', (t'', w')) =>
          match nothrow (dtor D t'' w') with
          | Ret (_, w'') => Ret (r', (x, w''))
          | Exn _ => Abort
          | Abort => Abort
          | Undef => Undef
          end
      | Exn (r', (t'', w')) =>
          match nothrow (dtor D t'' w') with
          | Ret (_, w'') => Exn (r', (x, w''))
          | Exn _ => Abort
          | Abort => Abort
          | Undef => Undef
          end
      | Abort => Abort
      | Undef => Undef
      end
  | Exn (_, xw') => Exn (r, xw')
  | Abort => Abort
  | Undef => Undef
  end.

(** unzip 3416-3439.  [elide]: the result is an aggregate (std::array), whose elements are the
    options themselves; std::tuple and std::pair are constructed from temporary options. *)
Definition a_unzip (elide : bool) (sh : shape) (Cs : list (cls W)) (p : pass)
  (t r : raw (tuple_cls sh (opts Cs))) (cw : cell (tuple_cls sh Cs) * W)
  : out (raw (tuple_cls sh (opts Cs)) * (cell (tuple_cls sh Cs) * W)) :=
  let D := tuple_cls sh (opts Cs) in
  let build (mk : raw D -> cell (tuple_cls sh Cs) * W -> out (raw D * (cell (tuple_cls sh Cs) * W))) :=
    if elide then mk r cw else moved_temporary D mk t r cw in
  check (o_has (tuple_cls sh Cs) (fst cw)) (fun h =>
    if h then build (split_from sh Cs p (fun A f => with_get (tuple_cls sh Cs) f))
    else build (lift (split_none sh Cs))).
End Zip.
