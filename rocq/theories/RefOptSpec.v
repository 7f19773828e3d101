(** What programs over reference options should do: each variable is bound to an object or to
    none; only assignments through a reference (and callbacks) change objects. *)
From Coq Require Import NArith Bool List.
From Verif Require Import Outcome RefOpt.
Import ListNotations.
Open Scope N_scope.

Definition binding : Type := option ptr.
Definition bindings : Type := nat -> option binding.

Definition bind_to (x : nat) (b : binding) (e : bindings) : bindings := fun y => if Nat.eqb y x then Some b else e y.

(** The binding that a stored pointer stands for. *)
Definition meaning (p : ptr) : binding := if p =? 0 then None else Some p.

Section Spec.
Context {V : Type}.
Definition world : Type := bindings * heap V.

Definition given {A} (e : bindings) (x : nat) (k : binding -> res A) : res A :=
  match e x with
  | Some b => k b
  | None => UB
  end.

Definition ask {A} (f : callback V A) (b : binding) (h : heap V) (no : res world) (yes : ptr -> A -> heap V -> res world) : res world :=
  match b with
  | None => no
  | Some a => match f a h with
              | Ok (r, h') => yes a r h'
              | Verify => Verify
              | UB => UB
              end
  end.

Definition spec_step (c : rcall V) (s : world) : res world :=
  let (e, h) := s in
  match c with
  | RNone x => Ok (bind_to x None e, h)
  | RRef x a => Ok (bind_to x (Some a) e, h)
  | RNullable x a => Ok (bind_to x (meaning a) e, h)
  | RCopy x y => given e y (fun b => Ok (bind_to x b e, h))
  | RConv adj x y => given e y (fun b => Ok (bind_to x (option_map adj b) e, h))
  | RTake x y => given e y (fun b => Ok (bind_to x b (bind_to y None e), h))
  | RTakeIf f x y => given e y (fun b =>
      ask f b h (Ok (bind_to x None (bind_to y None e), h))
        (fun a yes h' => if yes then Ok (bind_to x (Some a) (bind_to y None e), h')
                         else Ok (bind_to x None (bind_to y (Some a) e), h')))
  | RFilter f x y => given e y (fun b =>
      ask f b h (Ok (bind_to x None e, h)) (fun a yes h' => Ok (bind_to x (if yes then Some a else None) e, h')))
  | RMap f x y => given e y (fun b => ask f b h (Ok (bind_to x None e, h)) (fun _ a h' => Ok (bind_to x (Some a) e, h')))
  | RAndThen f x y => given e y (fun b =>
      ask f b h (Ok (bind_to x None e, h)) (fun _ a h' => Ok (bind_to x (meaning a) e, h')))
  | ROrElse f x y => given e y (fun b =>
      match b with
      | Some _ => Ok (bind_to x b e, h)
      | None => rmap (fun q => (bind_to x (meaning (fst q)) e, snd q)) (f h)
      end)
  | ROr x y z => given e y (fun a => given e z (fun b =>
      Ok (bind_to x (match a with Some _ => a | None => b end) e, h)))
  | RAnd x y z => given e y (fun a => given e z (fun b =>
      Ok (bind_to x (match a with Some _ => b | None => None end) e, h)))
  | RXor x y z => given e y (fun a => given e z (fun b =>
      Ok (bind_to x (match a, b with Some _, None => a | None, Some _ => b | _, _ => None end) e, h)))
  | RAssignNone x => given e x (fun _ => Ok (bind_to x None e, h))
  | RAssignRef x a => given e x (fun _ => Ok (bind_to x (Some a) e, h))
  | RAssign x y => given e x (fun _ => given e y (fun b => Ok (bind_to x b e, h)))
  | RAssignConv adj x y => given e x (fun _ => given e y (fun b => Ok (bind_to x (option_map adj b) e, h)))
  | REmplace x a => given e x (fun _ => Ok (bind_to x (Some a) e, h))
  | RTryEmplace x a => given e x (fun b => Ok (bind_to x (match b with Some _ => b | None => Some a end) e, h))
  | ROrAssign x y => given e x (fun a => given e y (fun b =>
      Ok (bind_to x (match a with Some _ => a | None => b end) e, h)))
  | RSwap x y => given e x (fun a => given e y (fun b => Ok (bind_to x b (bind_to y a e), h)))
  | RInspect f x => given e x (fun b => ask f b h (Ok (e, h)) (fun _ _ h' => Ok (e, h')))
  | RWrite x v => given e x (fun b =>
      match b with
      | None => Verify
      | Some a => match h a with
                  | Some _ => Ok (e, fun x => if x =? a then Some v else h x)
                  | None => UB
                  end
      end)
  end.

Fixpoint spec_run (cs : list (rcall V)) (s : world) : res world :=
  match cs with
  | [] => Ok s
  | c :: cs => match spec_step c s with
               | Ok s' => spec_run cs s'
               | Verify => Verify
               | UB => UB
               end
  end.

(** Lvalues denote objects, so their address is not null; conversions map objects to objects. *)
Definition proper (c : rcall V) : Prop :=
  match c with
  | RRef _ a | RAssignRef _ a | REmplace _ a | RTryEmplace _ a => a <> 0
  | RConv adj _ _ | RAssignConv adj _ _ => forall a, a <> 0 -> adj a <> 0
  | RMap f _ _ => forall a h q h', f a h = Ok (q, h') -> q <> 0
  | _ => True
  end.

(** Calls that neither assign through a reference nor run user code. *)
Definition silent (c : rcall V) : Prop :=
  match c with
  | RTakeIf _ _ _ | RFilter _ _ _ | RMap _ _ _ | RAndThen _ _ _ | ROrElse _ _ _ | RInspect _ _ | RWrite _ _ => False
  | _ => True
  end.

(** Calls that cannot end in a failed check. *)
Definition unchecked (c : rcall V) : Prop :=
  match c with
  | RWrite _ _ => False
  | RTakeIf f _ _ | RFilter f _ _ => forall a h, f a h <> Verify
  | RMap f _ _ | RAndThen f _ _ => forall a h, f a h <> Verify
  | ROrElse f _ _ => forall h, f h <> Verify
  | RInspect f _ => forall a h, f a h <> Verify
  | _ => True
  end.

Definition same_world (s : rstate V) (t : world) : Prop :=
  (forall x, option_map meaning (fst s x) = fst t x) /\ snd s = snd t.

Definition same_res (r : res (rstate V)) (t : res world) : Prop :=
  match r, t with
  | Ok s, Ok s' => same_world s s'
  | Verify, Verify => True
  | UB, UB => True
  | _, _ => False
  end.
End Spec.
Arguments world V : clear implicits.
