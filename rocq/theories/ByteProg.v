(** Programs over options laid out in memory.

    A memory is a string of bytes; variables lie at fixed offsets.  A call names its operands by
    places: a variable and a path through contained objects (operator* or get(), option.hpp 3060-3125,
    checked) and members of pairs, tuples, reflected aggregates, arrays and complex numbers.  Each call
    is a member function of option<T> at byte level (OptBytes.v, which cites the lines).

    Copy and move members that are defaulted because those of T are trivial (2135-2280) copy all bytes.
    As in OptBytes.v a T is copied and moved by its bytes and its destructor leaves them alone.
    Alignment is not checked. *)
From Coq Require Import ZArith NArith List Bool.
From Verif Require Import Outcome Words Ints Types OptBytes TypesSpec Lifetime History ByteClass.
Import ListNotations.
Open Scope N_scope.
Open Scope res_scope.

Inductive hop : Type :=
| Deref              (* operator* of an option *)
| Field (i : nat).   (* i-th member or element *)

Definition path : Type := list hop.
Definition place : Type := (nat * path)%type.   (* variable, path *)

(** Members with their offsets. *)
Definition fields (t : ty) : option (list (nat * ty)) :=
  match t with
  | TComplex t => Some [(0%nat, t); (sizeof t, t)]
  | TPair o1 t1 o2 t2 _ _ => Some [(o1, t1); (o2, t2)]
  | TTuple fs _ _ => Some fs
  | TArray n t => Some (map (fun i => (i * sizeof t, t)%nat) (seq 0 n))
  | _ => None
  end.

Definition field (t : ty) (i : nat) : option (nat * ty) :=
  match fields t with
  | Some fs => nth_error fs i
  | None => None
  end.

Fixpoint ty_at (p : path) (u : ty) : option ty :=
  match p with
  | [] => Some u
  | Deref :: p => match u with TOption t => ty_at p t | _ => None end
  | Field i :: p => match field u i with Some (_, t) => ty_at p t | None => None end
  end.

(** The bytes of the object at the end of a path. *)
Fixpoint read_path (p : path) (u : ty) (b : bytes) : res bytes :=
  match p with
  | [] => Ok b
  | Deref :: p =>
      match u with
      | TOption t => let* v := opt_get t b in read_path p t v
      | _ => UB
      end
  | Field i :: p =>
      match field u i with
      | Some (o, t) => read_path p t (slice o (sizeof t) b)
      | None => UB
      end
  end.

(** A member function called on the object at the end of a path. *)
Fixpoint update_path (p : path) (u : ty) (f : bytes -> res bytes) (b : bytes) : res bytes :=
  match p with
  | [] => f b
  | Deref :: p =>
      match u with
      | TOption t =>
          let* v := opt_get t b in
          let* v' := update_path p t f v in
          Ok (splice 0 v' b)
      | _ => UB
      end
  | Field i :: p =>
      match field u i with
      | Some (o, t) =>
          let* v' := update_path p t f (slice o (sizeof t) b) in
          Ok (splice o v' b)
      | None => UB
      end
  end.

(** Calls; [A] is how argument objects are given: by their bytes, or (ByteProgSpec.v) by their values. *)
Inductive op (A : Type) : Type :=
| ONew (x : nat) (i : option A)         (* option<T> x; or option<T> x(v); *)
| OObj (x : nat) (v : A)                (* T x(v); of a type that need not be an option *)
| OCopy (x : nat) (q : place)           (* option<T> x(q); *)
| OTake (x : nat) (q : place)           (* option<T> x(q.take()); *)
| OEnd (x : nat)                        (* end of x's scope *)
| OReset (p : place)                    (* p.reset(); p = opt::none; *)
| OAssign (p : place) (v : A)           (* p = v; *)
| OEmplace (p : place) (v : A)          (* p.emplace(v); *)
| OTryEmplace (p : place) (v : A)       (* p.try_emplace(v); *)
| OCopyAssign (p q : place)             (* p = q; *)
| OSwap (p q : place)                   (* p.swap(q); *)
| OWrite (p : place) (v : A)            (* p = v; for an object p that is not an option, by T's assignment *)
| OHas (p : place)                      (* observe p.has_value() *)
| OGet (p : place).                     (* observe p.get() *)
Arguments ONew {A} x i.
Arguments OObj {A} x v.
Arguments OCopy {A} x q.
Arguments OTake {A} x q.
Arguments OEnd {A} x.
Arguments OReset {A} p.
Arguments OAssign {A} p v.
Arguments OEmplace {A} p v.
Arguments OTryEmplace {A} p v.
Arguments OCopyAssign {A} p q.
Arguments OSwap {A} p q.
Arguments OWrite {A} p v.
Arguments OHas {A} p.
Arguments OGet {A} p.

(** What a call shows to the outside. *)
Inductive obs : Type :=
| SeenHas (h : bool)
| SeenValue (v : val).

Section Machine.
(** [k t]: which members of T are trivial. *)
Context (k : ty -> triviality) (env : list (nat * ty)).

Definition place_ty (p : place) : option ty :=
  match nth_error env (fst p) with
  | Some (_, u) => ty_at (snd p) u
  | None => None
  end.

Definition read (p : place) (m : bytes) : res bytes :=
  match nth_error env (fst p) with
  | Some (o, u) => read_path (snd p) u (slice o (sizeof u) m)
  | None => UB
  end.

Definition update (p : place) (f : bytes -> res bytes) (m : bytes) : res bytes :=
  match nth_error env (fst p) with
  | Some (o, u) =>
      let* b := update_path (snd p) u f (slice o (sizeof u) m) in
      Ok (splice o b m)
  | None => UB
  end.

(** A member function of option<T>. *)
Definition on_option (p : place) (f : ty -> bytes -> res bytes) (m : bytes) : res bytes :=
  match place_ty p with
  | Some (TOption t) => update p (f t) m
  | _ => UB
  end.

(** Copy constructor, 2148-2281. *)
Definition copy_ctor (t : ty) (src b : bytes) : res bytes :=
  if t_tcc (k t) then Ok src else opt_copy t src b.

(** Copy assignment, 2155-2271. *)
Definition copy_assign (t : ty) (src b : bytes) : res bytes :=
  if t_tcc (k t) && (t_tca (k t) && t_td (k t)) then Ok src else opt_assign (t_td (k t)) t src b.

(** take(), 3036-3040: move construction of the result, then reset(). *)
Definition take_result (t : ty) (src b : bytes) : res bytes :=
  if t_tmc (k t) then Ok src else opt_copy t src b.

Definition no_obs (r : res bytes) : res (bytes * option obs) := rmap (fun m => (m, None)) r.

Definition bstep (o : op bytes) (m : bytes) : res (bytes * option obs) :=
  match o with
  | ONew x None => no_obs (on_option (x, []) opt_default m)
  | ONew x (Some v) => no_obs (on_option (x, []) (fun t => opt_construct t v) m)
  | OObj x v => no_obs (update (x, []) (fun _ => Ok v) m)
  | OCopy x q => no_obs (let* c := read q m in on_option (x, []) (fun t => copy_ctor t c) m)
  | OTake x q =>
      no_obs (let* c := read q m in
              let* m1 := on_option (x, []) (fun t => take_result t c) m in
              on_option q (fun t => opt_reset (t_td (k t)) t) m1)
  | OEnd x => Ok (m, None)
  | OReset p => no_obs (on_option p (fun t => opt_reset (t_td (k t)) t) m)
  | OAssign p v => no_obs (on_option p (fun t => opt_assign_value (t_scalar (k t)) t v) m)
  | OEmplace p v => no_obs (on_option p (fun t => opt_emplace (t_td (k t)) t v) m)
  | OTryEmplace p v => no_obs (on_option p (fun t => opt_try_emplace t v) m)
  | OCopyAssign p q => no_obs (let* c := read q m in on_option p (fun t => copy_assign t c) m)
  | OSwap p q =>
      match place_ty p with
      | Some (TOption t) =>
          no_obs (let* c := read q m in
                  let* b := read p m in
                  let* bc := opt_swap (t_td (k t)) t b c in
                  let* m1 := update q (fun _ => Ok (snd bc)) m in
                  update p (fun _ => Ok (fst bc)) m1)
      | _ => UB
      end
  | OWrite p v => no_obs (update p (fun _ => Ok v) m)
  | OHas p =>
      match place_ty p with
      | Some (TOption t) =>
          let* b := read p m in let* h := opt_has_value t b in Ok (m, Some (SeenHas h))
      | _ => UB
      end
  | OGet p =>
      match place_ty p with
      | Some (TOption t) =>
          let* b := read p m in let* v := opt_get t b in Ok (m, Some (SeenValue (decode t v)))
      | _ => UB
      end
  end.

(** A program: what was observed, and the memory at the end or how it ended. *)
Fixpoint brun (os : list (op bytes)) (m : bytes) : list obs * res bytes :=
  match os with
  | [] => ([], Ok m)
  | o :: os =>
      match bstep o m with
      | Ok (m', s) =>
          let (tr, r) := brun os m' in
          (match s with Some s => s :: tr | None => tr end, r)
      | Verify => ([], Verify)
      | UB => ([], UB)
      end
  end.
End Machine.
