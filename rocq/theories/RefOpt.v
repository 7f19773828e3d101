(** option<T&> and option<T&&>: a pointer that is null when the option is empty.

    Models: include/opt/option.hpp 2285-2329 (option_base for references), 2839-2901 (constructors),
    2904-2976 (assignments), 2996-3050, 3060-3157, 3159-3185, 3213-3219, 3253-3269 (members), 2536-2629
    (helpers), 3383-3390 (from_nullable), 3627-3732 (operators), 4081-4093 (hash).

    A pointer is a number, 0 is nullptr; an lvalue is the number of the object it denotes.  The copy
    and move members of a reference option are the implicit ones: they copy the pointer.  A
    conversion from option<U&> binds T& to the U: the pointer may be adjusted (derived to base);
    the adjustment is the parameter [adj].  The referred-to objects live in a heap; [None] means
    that no object lives at that address. *)
From Coq Require Import NArith Bool List.
From Verif Require Import Outcome.
Import ListNotations.
Open Scope N_scope.
Open Scope res_scope.

Definition ptr : Type := N.
Definition nullptr : ptr := 0.

(** 2293-2299: the address of a referred-to object, or of what a reference_wrapper refers to. *)
Definition ref_to_ptr (lvalue : ptr) : ptr := lvalue.

(** 2303-2304, 2839-2840. *)
Definition r_default : ptr := nullptr.
(** 2306-2308: in-place construction. *)
Definition r_in_place (lvalue : ptr) : ptr := ref_to_ptr lvalue.
(** 2318-2320. *)
Definition r_has (p : ptr) : bool := negb (p =? nullptr).
(** 2321-2323, 2996, operator=(none_t) 2904. *)
Definition r_reset (_ : ptr) : ptr := nullptr.
(** 2325-2328. *)
Definition r_construct (lvalue : ptr) (_ : ptr) : ptr := ref_to_ptr lvalue.

(** 3060-3094 get, 3096-3124 operator-> and operator*: the lvalue. *)
Definition r_get (p : ptr) : res ptr := verify (r_has p) (Ok p).
(** 3126-3157: for references get_unchecked() checks, too. *)
Definition r_get_unchecked (p : ptr) : res ptr := verify (negb (p =? nullptr)) (Ok p).

(** 2876-2901: option<T&>(option<U&>). *)
Definition r_conv (adj : ptr -> ptr) (other : ptr) : res ptr :=
  if r_has other then let* l := r_get other in Ok (r_construct (adj l) r_default) else Ok r_default.

(** 2916-2920: operator=(U&&). *)
Definition r_assign_ref (lvalue : ptr) (_ : ptr) : ptr := ref_to_ptr lvalue.

(** 2957-2964: operator=(option<U>&&). *)
Definition r_assign_conv (adj : ptr -> ptr) (other p : ptr) : res ptr :=
  if r_has other then let* l := r_get other in Ok (ref_to_ptr (adj l)) else Ok (r_reset p).

(** 3002-3008 and 3010-3016; the returned lvalue is *( *this ). *)
Definition r_emplace (lvalue p : ptr) : res (ptr * ptr) :=
  let p' := r_construct lvalue (r_reset p) in
  let* l := r_get p' in Ok (l, p').
Definition r_try_emplace (lvalue p : ptr) : res (ptr * ptr) :=
  let p' := if negb (r_has p) then r_construct lvalue p else p in
  let* l := r_get p' in Ok (l, p').

(** 3036-3040: (returned option, *this). *)
Definition r_take (p : ptr) : ptr * ptr := let tmp := p in (tmp, r_reset p).

(** 3253-3269: ( *this, other). *)
Definition r_swap (p q : ptr) : res (ptr * ptr) :=
  if negb (r_has p) && negb (r_has q) then Ok (p, q)
  else if r_has p && r_has q then Ok (q, p)
  else if r_has p then let* l := r_get p in Ok (r_reset p, r_construct l q)
  else let* l := r_get q in Ok (r_construct l p, r_reset q).

(** 3169-3185: value_or, which for references returns a reference. *)
Definition r_value_or (dflt p : ptr) : res ptr := if r_has p then r_get p else Ok dflt.
(** 3213-3219. *)
Definition r_ptr_or_null (p : ptr) : res ptr := if r_has p then r_get p else Ok nullptr.
(** 3383-3390. *)
Definition r_from_nullable (p : ptr) : ptr := if p =? nullptr then r_default else r_in_place p.

(** 3635-3667, 3669-3675, 3677-3690, 3692-3732. *)
Definition r_or (a b : ptr) : ptr := if r_has a then a else b.
Definition r_or_assign (a b : ptr) : ptr := if negb (r_has a) then b else a.
Definition r_and (a b : ptr) : ptr := if r_has a then b else r_default.
Definition r_xor (a b : ptr) : ptr :=
  if r_has a && negb (r_has b) then a else if negb (r_has a) && r_has b then b else r_default.

(** 4081-4093: std::hash<option<T&>>; [h] is std::hash<T*>. *)
Definition r_hash (h : ptr -> N) (p : ptr) : res N := rmap h (r_ptr_or_null p).

Section Heap.
Context {V : Type}.

Definition heap : Type := ptr -> option V.

Definition store (a : ptr) (v : V) (h : heap) : heap := fun x => if x =? a then Some v else h x.

(** Assignment through a reference. *)
Definition write (a : ptr) (v : V) (h : heap) : res heap :=
  match h a with
  | Some _ => Ok (store a v h)
  | None => UB
  end.

(** A callback on the referred-to object; it may do anything to the heap. *)
Definition callback (A : Type) : Type := ptr -> heap -> res (A * heap).

(** 3043-3049 take_if, 2624-2629 filter, 2560-2567 map, 2549-2558 and_then, 2591-2600 or_else, 2608-2614
    has_value_and, 2616-2622 inspect. *)
Definition r_take_if (f : callback bool) (p : ptr) (h : heap) : res (ptr * ptr * heap) :=
  if r_has p then
    let* l := r_get p in
    let* bh := f l h in
    if fst bh then Ok (r_take p, snd bh) else Ok ((r_default, p), snd bh)
  else Ok ((r_default, p), h).

Definition r_filter (f : callback bool) (p : ptr) (h : heap) : res (ptr * heap) :=
  if r_has p then
    let* l := r_get p in
    let* bh := f l h in
    if fst bh then let* l' := r_get p in Ok (r_in_place l', snd bh) else Ok (r_default, snd bh)
  else Ok (r_default, h).

(** The callback returns an lvalue, so the result is an option of a reference. *)
Definition r_map (f : callback ptr) (p : ptr) (h : heap) : res (ptr * heap) :=
  if r_has p then let* l := r_get p in let* q := f l h in Ok (r_in_place (fst q), snd q) else Ok (r_default, h).

Definition r_and_then (f : callback ptr) (p : ptr) (h : heap) : res (ptr * heap) :=
  if r_has p then let* l := r_get p in f l h else Ok (r_default, h).

Definition r_or_else (f : heap -> res (ptr * heap)) (p : ptr) (h : heap) : res (ptr * heap) :=
  if r_has p then Ok (p, h) else f h.

Definition r_inspect (f : callback unit) (p : ptr) (h : heap) : res heap :=
  if r_has p then let* l := r_get p in rmap snd (f l h) else Ok h.

(** * Programs *)

Inductive rcall : Type :=
| RNone (x : nat)                                  (* option<T&> x; or = none *)
| RRef (x : nat) (a : ptr)                         (* x(lvalue), x(reference_wrapper), x(in_place, lvalue) *)
| RNullable (x : nat) (a : ptr)                    (* x = from_nullable(a) as a new variable *)
| RCopy (x y : nat)                                (* x(y), x(move(y)) *)
| RConv (adj : ptr -> ptr) (x y : nat)             (* option<Base&> x(y) *)
| RTake (x y : nat)                                (* x(y.take()) *)
| RTakeIf (f : callback bool) (x y : nat)          (* x(y.take_if(f)) *)
| RFilter (f : callback bool) (x y : nat)          (* x(y.filter(f)) *)
| RMap (f : callback ptr) (x y : nat)              (* x(y.map(f)) *)
| RAndThen (f : callback ptr) (x y : nat)
| ROrElse (f : heap -> res (ptr * heap)) (x y : nat)  (* x(y.or_else(f)) *)
| ROr (x y z : nat)                                (* x(y | z) *)
| RAnd (x y z : nat)
| RXor (x y z : nat)
| RAssignNone (x : nat)                            (* x = none, x.reset() *)
| RAssignRef (x : nat) (a : ptr)                   (* x = lvalue, x = reference_wrapper *)
| RAssign (x y : nat)                              (* x = y, x = move(y) *)
| RAssignConv (adj : ptr -> ptr) (x y : nat)       (* x = move(option<Derived&>) *)
| REmplace (x : nat) (a : ptr)
| RTryEmplace (x : nat) (a : ptr)
| ROrAssign (x y : nat)                            (* x |= y *)
| RSwap (x y : nat)
| RInspect (f : callback unit) (x : nat)
| RWrite (x : nat) (v : V).                        (* *x = v *)

(** Variables and the heap. *)
Definition vars : Type := nat -> option ptr.
Definition set_var (x : nat) (p : ptr) (e : vars) : vars := fun y => if Nat.eqb y x then Some p else e y.

Definition rstate : Type := vars * heap.

(** A call on a variable that does not exist is not a program. *)
Definition on (e : vars) (x : nat) (k : ptr -> res rstate) : res rstate :=
  match e x with
  | Some p => k p
  | None => UB
  end.

Definition rstep (c : rcall) (s : rstate) : res rstate :=
  let (e, h) := s in
  match c with
  | RNone x => Ok (set_var x r_default e, h)
  | RRef x a => Ok (set_var x (r_in_place a) e, h)
  | RNullable x a => Ok (set_var x (r_from_nullable a) e, h)
  | RCopy x y => on e y (fun p => Ok (set_var x p e, h))
  | RConv adj x y => on e y (fun p => let* q := r_conv adj p in Ok (set_var x q e, h))
  | RTake x y => on e y (fun p => let (r, p') := r_take p in Ok (set_var x r (set_var y p' e), h))
  | RTakeIf f x y => on e y (fun p =>
      let* q := r_take_if f p h in Ok (set_var x (fst (fst q)) (set_var y (snd (fst q)) e), snd q))
  | RFilter f x y => on e y (fun p => let* q := r_filter f p h in Ok (set_var x (fst q) e, snd q))
  | RMap f x y => on e y (fun p => let* q := r_map f p h in Ok (set_var x (fst q) e, snd q))
  | RAndThen f x y => on e y (fun p => let* q := r_and_then f p h in Ok (set_var x (fst q) e, snd q))
  | ROrElse f x y => on e y (fun p => let* q := r_or_else f p h in Ok (set_var x (fst q) e, snd q))
  | ROr x y z => on e y (fun p => on e z (fun q => Ok (set_var x (r_or p q) e, h)))
  | RAnd x y z => on e y (fun p => on e z (fun q => Ok (set_var x (r_and p q) e, h)))
  | RXor x y z => on e y (fun p => on e z (fun q => Ok (set_var x (r_xor p q) e, h)))
  | RAssignNone x => on e x (fun p => Ok (set_var x (r_reset p) e, h))
  | RAssignRef x a => on e x (fun p => Ok (set_var x (r_assign_ref a p) e, h))
  | RAssign x y => on e x (fun _ => on e y (fun q => Ok (set_var x q e, h)))
  | RAssignConv adj x y => on e x (fun p => on e y (fun q => let* r := r_assign_conv adj q p in Ok (set_var x r e, h)))
  | REmplace x a => on e x (fun p => let* q := r_emplace a p in Ok (set_var x (snd q) e, h))
  | RTryEmplace x a => on e x (fun p => let* q := r_try_emplace a p in Ok (set_var x (snd q) e, h))
  | ROrAssign x y => on e x (fun p => on e y (fun q => Ok (set_var x (r_or_assign p q) e, h)))
  | RSwap x y => on e x (fun p => on e y (fun q =>
      let* r := r_swap p q in Ok (set_var x (fst r) (set_var y (snd r) e), h)))
  | RInspect f x => on e x (fun p => let* h' := r_inspect f p h in Ok (e, h'))
  | RWrite x v => on e x (fun p => let* l := r_get p in let* h' := write l v h in Ok (e, h'))
  end.

Fixpoint rrun (cs : list rcall) (s : rstate) : res rstate :=
  match cs with
  | [] => Ok s
  | c :: cs => let* s' := rstep c s in rrun cs s'
  end.
End Heap.
Arguments heap V : clear implicits.
Arguments rcall V : clear implicits.
Arguments rstate V : clear implicits.
Arguments callback V A : clear implicits.
